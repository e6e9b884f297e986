(** * Witnesses for the check of the table base[32][8] (PropGeTable.v): per row
    products and quotients modulo p for the eight entries, the seven sums and
    the five doublings that lead to the next row. Nothing here is trusted. *)
From Coq Require Import ZArith List.
Import ListNotations.
Open Scope Z_scope.
Definition wit0 : list (list Z) * list (list Z) * list (list Z) :=
  ([[46827403850823179245072216630277197565144205554125654976674165829533817101731; 12089777079628320618000921127670825209163210154433485764836890627159878209761; 13179997842187537603506756088695382057606875996543643491371707253189519116527];
    [16552979481334663544878610556091376071931149008662153799327195285289362371585; 6641269818655623607039518867122167455242689595721592842383860057608506014033; 4658986317942763125530741044193062007522317382445603494025943775166841394082];
    [19133203167024340156157901305709655404499344800967978305064989153409356768282; 6743258237874379575953832327795487793144750025096763998866812939822304010670; 5385213693649676198013176830936510115165087726763002392440332455816333348453];
    [15591078450528575260807955779595146919206594628260116491306850071973737403224; 8181953590849366369333656401341534253729298769835090453278751989143907370776; 4388250542139139375265954643996319523131446965053009296995970722014931563755];
    [52631435118507418230927645098360784166288333741771923328027903523704223039952; 24912478724978669719436288467669755371092766181383718252439230274986184940067; 14813595122697943796129455055218932922841037764480115582372951590959901811351];
    [27228768421258538231954343865440844652488997325483373020760696800100167381458; 1435615280489224445828942273691445464436192678041878350010646371346864230746; 7663784013755505919608144850066216398006289550193584285855779767746372296373];
    [7969306344939599448108779620249142998159244560978835759187616138611789393179; 3576957978588238476811314794424929515154206407324990029083190680237458175489; 2243033604097378425369758595793497384881274725446379857459115340774103825061];
    [20041966898814491726444579060880528788025287386839181497696933332457633763775; 12342277008396846568104187419059538946643103295059482637825592585437432444997; 5640993494345202888895567910186846183955566397143992004398383977747926377185]],
   [[24727413235106541002554574571675588834622768167397638456726423682521233608206; 15549675580280190176352668710449542251549572066445060580507079593062643049417; 26187595835145689230469591415084376402084551887632582719101735842039498021991; 3944643120641682540557488748386534817562863454810087094083181913524639656337; 37053468555941182535542715202780130513046395093004980492626426882532201484768; 37053468555941182535542715202780130513046395093004980492626426882532201484768; 41103782855417034832585754869730994192149373423248309125618910375726204070323; 65177665835839506312102046206508315748935678856682039116383390050376597560629; 30655112042971184558329056706696549839726511367961720624960021019854854290862; 16760061334493241107500538505654000897334113208084852940225110938905278734074; 10865872720795493305073123787695754110961843205372397773524691040492703462776; 19641635784112395346641967481223427603076292420967697888635760513231183455066; 4640816599768074523567265725477282336817799778256961706557227807567430185402; (-2918347821822279244224534467951863095252877302676643115518800860268071522766)];
    [46896733464454938657123544595386787789046198280132665686241321779790909858396; 8324843778533443976490377120369201138301417226297555316741202210403726505172; 25225440941862457257645256542063839045928653454434489306237645082571845078638; 6454433021663346227697405437452792583555821297117287786816762890575823932726; 47177367235419010768153430470966006157220653052848217676242938876824053331503; 12439740464224152141082134968359633801239657653156048464405663674450114439533; 35836198105162576089666235987302654396223515045126903913024701345011743111888; 42734932977233067809264829830739557389258739414756841044425616057525095909862; 3364236006921377708987850388260268045919210514534713198477653094347271829663; 20555288341858445091655881398897118214263259624518105402237652989900493436799; 12965896712281167460188844285041720407456251414812089957574419241826119111093; 2155565383258724699621487326096273367412687650293044625345827486478075842728; 10502586251765189032171361699000264158397174470481734387195668932726726272873; (-1864359910755556230756376877239954303300786756820140253993326411207065582785)];
    [14582954232372986451776170844943001818709880559417862259286374126315108956272; 32483318716863467900234833297694612235682047836132991208333042722294373421359; 7993725896045229224277574314213090292224240467024112432852255540827657265941; 12241143956432055531202486473590234626861330234786312866313991755944081397999; 41397501794021613808263597198901733266622129180730213465230236970696920096107; 6659875022826755181192301696295360910641133781038044253392961768322981204137; 26017767879450151991953114887376602923048042762302361921582244031184532380297; 58591384625461745448627231576173574045560858476743384278519332398045863291731; 42001816067823941576344467995104549906832135807136605908951387580520224565880; 5715766669417759778363817534894526313754252756087678997369455773608552432043; 18513710011531162642988274317829348843846597833326320471917708391491157976305; 26911804214548151213847196444021955090058842625263706488520255608300216215155; 4663264779966969455980910800764421953667163839643733033188314338219399683667; (-10387354557591737610775010618778821084636930769016100658586981823523116280016)];
    [33467004535436536005251147249499675200073690106659565782908757308821616914995; 43097193783671926753355113395909008640284023746042808659097434958891230611693; 43377995954398138089317902339703977257417336778982074991398776215364286481314; 3806492027932816286943340544531378262666299095406281886140000634798422106870; 37565863897222393862544965139024480573872636735470449370612192578626811701077; 25986654973490774320187866638155689788545638268906392966666434177835498737087; 14808939234780964802072261144047094794597015296510756559257091401759104639484; 49938416085459201544314970141961408501928493189974599062331074439696155987162; 26927044495752287825606273060902143857752829886766490591326281402585034936780; 28145824173142849494109534048054691063326006918050788186431482529218701576502; 24220567711736597538763209642646640897185224037343301454924280019954294030576; 17252952786040221569256300169830738451425392910286207930291455844184212503876; 14000781137962376274589737580341119239962783261886826543329033808684414561078; (-18029530464450117787576807786691364633346532262412686209454772969042376062434)];
    [34643617590234865996699167120328052565261792237873803846102513686264813449789; 2399184961499513294557607325187831088545696902880432827228757905043131825908; 36277362344627143603181615282199809301612923425389452059480855738482600112167; 8735670696965559355202844743187521216766005984693250254924965052076661141827; 57636172874400780487398287718464788482881215929962359735169464768695610417334; 34477755026937541402684090716727206912227218996834246927277947967112984489354; 16481599969396844169450851324285516109800061779201089106936937309515174173087; 81236404612557751309933927245241368849728312645248186267671288974248987256581; 9321251684824086997076667595592549179720619027741314161893768490450252837134; 36114528052722601355828827111132288849224491640957725264424270249996265326556; 36043558918282767795116152486367188201989528504777638271973927440127539542563; 5972401287873865351512432581118941785750504301181711780533828042945847319043; 21567609324276310081271697431523672742004579933489335201606726965382399120090; (-1493628193173621752547831313162228833304366782481347546809619376424449306553)];
    [9199134265559022971505535402808359556995554859516252602543778295037484220679; 22512087849695599276028560866629687720820254811233262850576678203618951717560; 43257540543391807506416350383737931911561371940085466411402484301707178317677; 9042794215402517452823862559450010784664152970700074488340147406759904929849; 25077765816662849720360282861887846441490554455432459069674523125617131388706; 1919347969199610635646085860150264870836557522304346261783006324034505460726; 49834707627294116719911701366787726223954869370856313817560475813401937704808; 39303279628603588670082150110273952515022612750978802336016828467054061066194; 6780309647964193475979543521163544800389760644468538355696915591933217020260; 18737073986611863055604367355777311573018920602327780275842545594149597204398; 174923272128147197248250094037188306119021083353085685026965532172293842474; 4344344669891742166422709016424507544543124546212951091663678060996119974474; 27793654593791848732997130551929443904853878446924165141436695401451812900; (-68016530231773386543708436875673200022585210267205308771762831276843288387)];
    [46706390780465557264338673484185971070529246228527338942042475661633188627656; 15299170165656271974649334809062094114079726227711063015095704409550798436788; 22071748864570335449053718289094486028991037054140748831176422071918202269239; 2401189134091935953657955857209616617090835682887045586352460953417536837531; 18009670279756479420822848693303750176656203848986610280461342562895161374048; 18009670279756479420822848693303750176656203848986610280461342562895161374048; 20673664647230708853112346331025439850223970341541116200245377034655283835468; 33646348124441655335393104681672454326281224912135722282955095836252052826250; 35660668170410805998988519420135936607223643539445939930037288187928007385209; 6865838973400225959484872886397554914630245701926516943876638268508949596387; 14171261514870437282507247499807306757232301307464014854075852764766380852981; 22848843450301434925543290906224392502557157563473018322670728064454554400686; 11432360924228057737276068842078982552451772191827599392136199828629777900039; (-3744790215049475727883202879294016965836396325742933525547338387982903172323)]],
   [[16121637619009607773439840283436156467545443443832420589584197780484295031288; 50925107901044861941301590032293890690813323578124472818968980802518735333355; 127861709192146822626437559255624807920841440291344553900125606614409109621; 37679377824621416266258827506778603393859393314645277006498469630345273328535; 45045685787425566886238050791290583777383161127218356027310190732063519851245; 4042842810755248109960369350253159222765776795777507046320235569826384076751; 27361436675588599449968153967963312234719585008367781556875390999636631668467; 66406774652170357512427571695150840509911376700541749328469890371046522295281; 17059340475246954150486956637175851143173403068931224204903697403743224491756; 99482070225164965805264550487890625971876138450988339507400955363124905561; 44917824078233420063611613232034958969462319686927011473410065125449110741623; 10930423345452931063741807116622914173771494388231170441152563009458707159393; 12507743615188744028837367547010997113197663091988350548698104110210699308939; (-39509521815019041290781490964283444418438872806320840595788662227741072261124)];
    [26148317933504540005443173402042326458672162458767831815669826413036406984486; 30850316547316149219369061290562558254923949145644564178378051444253659681385; 5031371835616021532169564742474723985845627018416561311224232525340879450410; 4489204767451518683629062698578737416169299930585987343786022946750501973166; 56149268211426110757272259297771002552864775690226663369123229707859921611009; 44793502419978795566956595295943004032535076327493779385214737878381032645784; 19533421747561178238402131057511079430672815075543562388244088700205173494250; 77643751217199031377103281648884023369067481978577272577399278055303299584251; 8244342231409455468629107776885038362314417837816001677875874120817061670019; 4879570763947763868073010899704445302106780337776672561790047331705242017379; 51117896375810089225102694555296278567019148671810102057898997182519042160598; 5282393591056861416147338588817526388097089100874084878263555694181562987903; 23087017694052658222413739437154158341281687030245518914897054140724986037367; (-27238532352492125360621001046640397134004132260718712437279177862146637824936)];
    [2703967047724422927942795606844806438471095130334849099131707700624039388171; 27636351750987415494008535949645960827550590090960186204735008729987540453670; 26795146715757737772451791549106695331499603969143146081664900822441771780335; 11809693309019053880717941265700076257129613951574417974297792988736033491689; 2080543015314775582702487934500612734355457945889425558293850119486723050652; 16438809202570147630247482415530927497711270614190082576289655226700218993577; 12564398816608383795862040485109925637642873596862677274180069433529153299183; 56115134532544552058673161503475636563642736450937114868230066181586851128442; 17764331123313798237781612378713811319703357350528205498839465078830718554930; 962906114070500997785338464843230557241899983229338551898914438249867926010; 33181440918215135522036188889737871329490846309566561496357741301001516090265; 11382131677855170233477434887171725555434346672533216014844167641085008670865; 1549700388512449153023867776282831269918521577943299245520592389006786314210; (-15838974473307546176645685489403647933125983442297911721635554829561562610983)];
    [25155917782814837260398069725241853231864729763246304429004555936282046356871; 18508826420441071939750277538143617204571229748311242415842946762595677996796; 130178454804153595346643229197475977126618406711946655211554815701260402505; 126285618358517055811019517548346687336929867367789210072518644653601454064; 54096202778501336474354816075325711102208190475212824791338932770829858553965; 13192057300891441074251022776743883042174181577095375610089752307914469419315; 41622228481995954639091188557856964411772222912319995691156073277307008736921; 15899789888423692778120731616757092871576205536970846747285194331042619985640; 26162438283733374340519488623181877870892904875420607149664889689635919131028; 121634563032100379719463272433323696837344032687848309214386868872580606053; 53966024323697182879008172846128235125081572068500878136127377955128598151459; 16763047000874814629520134923644594951962392119108160294183473408804169413469; 23448318100038409254235990847627464093249026650675402682174497650593015131741; (-17252435522801057152510911900778228285240592082563891530377324854110426061862)];
    [42740085206947573681423002599456489563927820004573071834350074001818321593686; 6935684722522267618220753829624209639984359598320562595061366101608187623111; 21170513162643964760490349775676421950790642950039112875237327685056589153894; 10930283815827402038583766073122149993529925924561188415520471290035796798103; 47622119402457834692496485690084122376720107050492916476488932397267034699377; 5917099479220997492627938385759113995488650923317630577745966304294295793211; 9512411359767356823086215352323012915410066624251482895288077067858071147145; 32931608694410349267794649090466647444564704479058694398418441844941005347456; 13529353158239606743117042510727350026604895463552229365747716333149439816758; 17413706105197892934942671445379125200668416777015483150999032365084528456720; 26451606239813869932006135914407700425929464100453803601251604712210445545482; 8668656201819477451873892861799932366675855422724623479089172215332669611192; 19527135437261489800618637869909308597992001674358954316151669629533998356736; (-3168782988406919262580349410376053757394507267101526460037079980918693923438)]]).
Definition wit1 : list (list Z) * list (list Z) * list (list Z) :=
  ([[45190082622104628312424241671176328100266152815574825809524629283795790963326; 5120069219954889729095167558685121869994108420640280355491130311121406927180; 12719158921238068909396673941674438047322293303112984194609516259220349692995];
    [52993498652388747170776059107235367940069893473374626431275307784703556584762; 14065281511779197362365276751719871313809989861560479751969700020256391778926; 14915501190574197048608940608454029389802849046588535067418930841643422087422];
    [3329320675061347691959732467350769932430821675809868000428433791138140933108; 14450721136886310321803031308824326262275047130787463880002427243423356848458; 937067522535472443932315343744018588316876181237429682957204862029938504704];
    [46495268282186673125544095118715147387064133624640828383339661155530964615084; 10184235427602409267859543814817374584873812882936908132379302742425632990476; 13086515271770259846720792935127985691340425359937867006058252565301747014603];
    [36912823649249826150028370670168005703535389046714062531767855488954887151475; 2111484373854820675895495400668352963259921206899389590820781875581639041773; 10389449254885597017092462357842233551788222367100721297140190713623947163669];
    [44608717471329958427908846288986583936129271086101734427600419412807864114971; 10833613455041606490036066336426683295300822533719553228327587446006987660661; 12555528422798670922076097942893302815156335862709941920822158716257561675019];
    [6478560377468730739434360964771161097425184720728554650786697043660884715094; 10867184262475864735780587893104609870721462547608672286304852952533030876167; 1823449620814682947094424546525928695118011815763061376732527193818514097477];
    [6180570604009350440728393675017435254415269018264322255408180225748186833284; 1085667948565142682124933006699904088146061018360847778912069546238820661494; 1739577694373910513145029120767486831589733140412633367696790587760926716740]],
   [[21224688672439988911666787158810613738323773477623112347883957939967013762058; 38366836778969845606589656703794235990595431744668605526092433715493688021992; 35606534378525790103230894501605286368724735598376693380062203638302668139664; 31551635271962004263275312757902556777243321629050195535338268258465005349668; 37176559548745474471044512469518490149184576721785254741003300451213473738368; 830863712487993489497777454805006311239570801920507470694587753223489450197; 47371169934164325775552905304788524865171633285671035700657178649194594164786; 42622637424359777210963425330077806828471109272251263717015116633931308654227; 26911399171133656729144566257229823525775946500500008160971094186341201196990; 22863883955573717892535497279475833910463522761946279679223299423667796841738; 1570025170219684367813617967913203780459841123408561360941096812910805598703; 17242928364421647874677105046457933136224285416192511763257620430491906854103; 575571192562407565023281334802774345761441194272640695075754438398009512822; (-1040432033681287028876905143972346901195768882011939767056841489782509928384)];
    [50973793734927410147071993054404429506997514707423231857784709000255352116155; 16413131815607581661646167769888544224046642958087183058350580913769959758850; 50341133160784653190355041020752554709835815159538333605933588974381813869445; 15668514288429911769770578102157606999680775938782940189246500009822063028307; 44905476556712803732822545108413085132125663309972091219921723228764244992510; 4596173805173052280989018680502510136797381511864327864770827097487281370498; 289080823468510079424113887382990217533226153300577372252375307667134322331; 51130520704282846925742030852342513087259630720009652040814261058962737157931; 25133760279993774766251835033813055936142315895335176456920445083162883446440; 39045717024016766191567634901884083812584203526525913916152104319168997889990; 14275310166138004152049034552388370110938542087591358572769990692195474969324; 16103942618536934820764731314096763068580985942012178264258160015599777908924; 12568504821075921505749597319300200696487020547178131067668475941126101712451; (-4046952585600253450177185246314601832181863559713480527437961567710863417245)];
    [48427913736837608266186835246980452511660467837864105011084951035203551898472; 12175353081024358281744367214419414005476983323671937693306148471852937756989; 15449613952651894801748942313627085710247746378499251506050167735982828991027; 37629933131046139619169335361455171732896384018013276394281899245167799116347; 16679251720914265678174926179271876327109068844888713600052612415994461043525; 1966219079939836940477845697027492635060031009789854363735523077436552014925; 31590066273876611198327798990900745037990514958721892269463488331795715632202; 57819103739323404304847542687276655505360421157090897205956922731965978119867; 53322497732295064067544393728174065592617155954056181201085694668066672201084; 4450874007102470081072309879337669127874208657035890837294047440862593982959; 21552688096655582272621861823765111733882458734976861315783830033569098801759; 34165299350032562255563782922754173584012545759690049853949627076168670223689; 18028031566174289281186137332282867328044594280613012731659320185532847515430; (-4532461399572112534259548878204595909831528662281471878695520633042113774486)];
    [46184426097803860368008501464774728662594474599483318436229483844883085614034; 2646922433580073539121703714989814566149550331044196012537188063422514399678; 43827982779795326248122572822718016828573652153672398455079422086657916791860; 35750510646112597023664890271586787419487605227217016985533298618680719770668; 36098261656216662088589875054371683761885150795479403723836261899750068773394; 1458552322729163621376985478286008046194721574190944126633937732953290782365; 1743938693855020416614856981245441675154140014251435141032559398295501196755; 51998611636557115315729488935168139790216821845866088127741657952892300556438; 11700752202472413671985009436482895476907203310115045017698523133032871211513; 27326806186330448545750691281405519269650925080377413440274092931270774672523; 21691903426686900870638199599046872591322492941708042494140825738605688911952; 7497017555798144163526304888966713107214020630578948386194075344266906738887; 17303912855001175597486383198510433339515697203766616587648945446033810130649; (-991722080244604145144053022745050210663123625960347779470718846051461714568)];
    [43527414011853740718207284924384303730723195143425434015992280287685303141909; 14409846810646113153797114215459321616862846885033782422816123565643250686140; 46933458991917428299425721860061020784811955828808543172235841228585002054421; 34094320599199881490859259509208425658804167261311215356570980828852629317747; 36587866196224989810832373522214598834027197919360748044580190878653460179838; 317089355675370153047824206878355027470558631325486742186898545626992392580; 34869572517934716448379793445325709553445672083015192298129670736566353685499; 41898109809889228498743647832396996046563927469947071423056323425119012875785; 54918206177704312720241937843416253395016272296296062868115898352529841242526; 29659972957269844105972941229153633940218207096687041500620448635711863122328; 31581313266660873591256889737193459238862906049160927909233973868349888044396; 35187716885431753309112326077815610223139525478422563254187487515587458896166; 23743468256776024914492675242656204874766129992164060573149428316550990981517; (-7860327752078424496405489865117932691831184875239190765288114803103065905891)];
    [27791720233873433091652461716557178838005662466315479765353152387942540975513; 22638648476773057485090840023493979065120026957594809032291226155287617863929; 25992271967643539988192159800145953829047689318156419036212049304917813090813; 32132858055473699819660643284551332497519337224457253043839857499458267444789; 31314769747551963506852688935817874858698576420003879451767206624414205007054; 1726234581943724300965920634617364156634408257097206789606747454276783864814; 52796989310998298547121086477946283303869554259289937361331406695113735505646; 49711134118386287269094857248907521084004267146451036305027013047919530004443; 20302449541955426246000389338169857792802140071469962648266127636070199899153; 14058680817380029344855676541442554817758644042502452397515024144123980414201; 30041379817771000223552256264434047780867922361673176817483184547992897805435; 13008379120240126682943142298234767841779057660081213636065835811729262350520; 14420702292086468765207632257077154466368382981363255306834447275779360336061; (-11746851480637563670920171317501161921475446434576050306101526159680340797097)];
    [27186305465236551749842573802124445331552679641832078930108365447931276498935; 2312041997451586708872587523550236508157965803316305389071105927566014363214; 6159049117607669573716970954824032657864143700315481427579028315766611007139; 20516435944237230566643744760481289527240000500991638040342254085173599682671; 56755572472155917906054512242442292259503179448047584421226535624374509920625; 2712007865357800141208555281521485609363074192507115781507548881288103317206; 10535894275451428582285900510901503531320456283246564548339494067969516985551; 43270095738475924043199557760246616063468221013878689074103587009227106521927; 49455251310543952195408776453938974964653695245717138636886779032324497559308; 6037724353302325541857232642188204189616738769818336502656328059420172613283; 21925183158734749470754678047836835170290058749671496319978698134316346724383; 31687440335948036373293205730991507844176506278499166097664991529801721164793; 10295430899653026845176563259764674008475320915708500840029493636141771471897; (-875568350112756055773617295320305914793737066594092452085203558544748344088)]],
   [[56574002287690562566387008107654176112985293065528815433473093068153251878634; 40555259698712479228142211631679471073561232444601298047972603499607234388181; 54997420631405189110879317770670405056165892298528282152438210650658890255534; 12765901534678646497225310440740127342851749219756365190785529012293522833359; 22440973479787171080036952760742150146445054828206266474739775423162664482434; 92329937790900863728074025154200684786852189448806786186321013248087945738; 31903490700552963360587565377103471784806492830442911118265554521361363584587; 15029567369599832725203250479294136203930723445926867534795989118019252102086; 47608782200974249541461834502139766313232949937481089056087611394120789929149; 21317443462248554355538751478572715146701872771029340137523965241794515037243; 25339597467040079680943127494415699016914154862498266342030356776460339046848; 30504353035991547540024799932719950380123244064704504934552872176521675562003; 24760973819746760100440335472147275222762482669719098069404277028615790572203; (-17749985559556971854464425755973988845597359934387812069644226165705430247975)];
    [10780707225527799223727042055056551995903319194379151477081117380874163309022; 52019749602470059668344983068026172384793681144736228079710257376320252456841; 50110231003758046817038484304822033700961302021795066851657094388743097915412; 55282148477137197707385486072517990849372508072938537294980503789685609296656; 24699639327948418390538980601651082462040209609146103150823064307718405801657; 28408315284114719800042469660680722791025501694031483070214733629983964628096; 54406172232922246145143472052911296551592114196808564932500719826251789336123; 162948843848704018680903786597791097381359671305428728858032703379840586851998; 36042087532605883476081768015366335660292820393579803051234406328840207170137; 21378051654225246087723573553680320894214681756092879613583029755956510827303; 32485452942848469285285988801173002687713899920171318318894761922931872706193; 23093230102118025137490788105451668472688563886225515319472803785484345256258; 6049051529724813139384982311757940425662644139130532701647367760794941032486; (-29188265605025528434628208436103409099000785886768393068404107202705758553009)];
    [3464320599267112696879288753247079893959896359625474425290602150960671705994; 51694133746787581571724731688211103718833232899104586370422228323317173487873; 23791682104633732550257874250859085863785514371225871236273900291982958800963; 2007454033312182865925680222843717241995352697025292514960180754192465333029; 23983658653110741046797562031848362533921721350793336277565583987404423841605; 46739882949302664931782326226041152065947991169905834764092451591725863016124; 34181396458283811886919209457085219045958668780035291939619121281829645889171; 68120325037441801607373250199981501476596704511757228755454823448982218929302; 46330430997834106349032172240437603060327552147698901489031123437205947786322; 9855795609860511772160996110028336940285699245261452779020166778294821667857; 191976548477008496539687780989276670136206979567465041291683695421465040641; 29685275659889844002751820451098197907121417057138953081201167356101044331881; 11487284076929343758854064133508976028687885762412225503390928648829928205; (-171411733540410291596004747191667887967286416740667031013992672689400883112)];
    [41301554414245700419639718923570458390119154231634759147665520927567584100098; 29364674778601018936997556626806786174514088488710242926018946766714482756934; 12521691492598205063627560802882522104136539588128323351584042164916066269139; 207294251162690489634816826291120575685797766085257151339822024212500278453; 32966113723067061166694917779552822292958360367240135276798056637505248806254; 46156580841268190734873768840166969606158092091536006231468595534621859573375; 12413039133876294753849353077511462833502956385958135172612645010803762247514; 52550309885337333972662052613407881416207061155463329421924583335045017830075; 8569339262334928113668517729493169540029313858652592819067076747225580331867; 7129874043539131057264520696767694547000971562662660404058109620163225156011; 20444422230468856103067356976670300188821820779111811925214014472589182537114; 5490628788612425173023106698688541017975319003265192191823302876974422720979; 14584526849480221402840518672610650665328211088634075587315709465222482114801; (-10369340665470031703989815199886212499042133855480306713991995197546441767315)];
    [42474966419402231471674152001358115696747244471432888578155981280875302200677; 20182938281251249849712136486927848134532420155649429100890386875073412000822; 45391671137534403074720419505764436091644343539005579418723482906010677114852; 29463470402314257444177216009958430019859062950038248616110456463752964722848; 47881891000084448267009268888673151732711162328078132983817925270972579269112; 14893662089225338858088150556863042870448281220644880200621034123409969060956; 34603965000158312121750242016655276177443267381477862165577446631665036505664; 86253145292184991309219136585671676105592965900591648586809611689947362224640; 49243835918012739509879229475044470454954294593051316960556075508376995138006; 37540371955196911960738879788659458114770082180712184166791541413990428202482; 2490219862550045192288849382908715641066818789072553565094442364961902154259; 31551980249113828912700633979312969065441142430928241362912801162654551443979; 1826929727849742893743742971264732585952874461363859670229437124683082103680; (-868106865048192083982219921661967403523433113150000159923429503284138117960)]]).
Definition wit2 : list (list Z) * list (list Z) * list (list Z) :=
  ([[13664361721323129802210938873361597552783530985243995323016058555419267517089; 14807049970124267219284424638044686807938140377982020380168795958444667793345; 3845958630882820647895972504885461399220153823243103051315584544340879102256];
    [36198129113847880432536743064857659430185746807428019971436497145765773382095; 3466606291264882492567648141942293786594678839921864953266571622593923169160; 10188291990980280583990500464492838504818771996067636939669845382108420953235];
    [6766893663060143851455511081795303356058790645631321371761589970744935732551; 21179702329780238698220399742942791258969301878161169520399588350505831189661; 1904603641098018888179462803782473066632232726225888654633208019974270373197];
    [45794896526220341663685371134854690546978524840329220096458378881627849243074; 8635885379209991762875540552078539744316135549301507243854112635768501744570; 12889389284137634013867817213863889854936733390036935651563466592330347586668];
    [539400702300530018753633071525969080808928232035046898873334994808619630973; 794470801874276902782182396855204741519853081969760188189019059994853646103; 151819223526534528645631572512742139983404882036132904879082763978649504734];
    [69674151141597923353344493756058970072375098855219609870826513892159385832; 14455596717920660510331636642081090611949524997016099310770108708145232386618; 19610422235405777187644278961932531448049684260172441934612653836923265402];
    [3090213329014903574090778135126786378751030067555283752769325671324837280500; 52170487385836591697417620546585605620277128739945755606180452065994847433162; 869768589735722042239940545914895474117257686069757671246139334644417732426];
    [32554118880109915173843239536039952849279409455579901328664719854407113195416; 7104929003562705464519011233540448314165627856590117647441117547652195511264; 9162652235879242641437113858203213267229333563993869619275678223121637797442]],
   [[52869748631960986034856376238747990075784338722812323924650009680084842073895; 3796174517710171698598804855217198428321733657889201949428151222167600506353; 10774644156382160367945646805930388261190057678301760196122105766769194141444; 31161416711841044529974942421201538578630023846750741271922489232610579689865; 32345979828598517879181475321228797457607338090092361741641715262019756296549; 7035903753838143472256027958557484575727566108944996817194792758888248665115; 12553302808968840139763507369538426897729465406061830564067146135670920652222; 67811420405927722440799819655848396770233870711659778849454873908388163941671; 559037727690281833084928305303280877991058355724528072759778014111281867042; 6019693138593931356671533586736296089854527755847311935474967042237966260986; 21571335672216357511235828515298409196417280411790601545519609495250562155104; 358191985123994544886291864941045656500525653185816792793290607811919336094; 19698601211147221591310319082022172112825081168661974594815605778485514882554; (-1414406723830836874349370033512705371209927472569652551990862366860200040248)];
    [52380781664662764370959756758949417615035468195895491498816628478206304305808; 23409749761754498726665092104140238868249051171056219215692925822640774230730; 7496813846801186907325553558910782443538237056333089601677603185508936227483; 38787464887041344425333375040129211207530544958511514759190050966032045352168; 1603815248764098090934216634697153456462524796026557509455616600094291588657; 1323371164653129630495187148329430624391584847096057222781829917204466764441; 7383425009856050294125929811632888691248385745075124442620099046944348771286; 61326607644322761250926950489920126107518149609805209274592885821964505867834; 36805705221054708326245764388724017547256937261372853969678688980530552500697; 207674020631985946855957121315696409629237067679361941379561543907865807066; 41824360124715097094419217370392503411703935003972323096616710580947193391388; 23582502511032825831148295850303131424526281329297592024117684476166383543403; 37840109637660886833571912070317031230475391327916713700510393371664167391134; (-16911307342566728229050839024489573587834330676688733222029503659390370518850)];
    [48142588613070057936665739918694510016346910601601381787709232357287830656052; 10385474060292222039643213821294435966838835008701008210657350549376377214577; 44014460255214965450989438330285230755653476937520709137201556732251379984153; 38428738213172923422658818906313420621758839968438696486483196382543438052787; 27362131095504167349809106933420001190188625955210677831856493450468207239267; 8160791254965323789031118338222327092936688697679248670440822821621852751357; 41850735114996056784171941947952925408409406586869381171048199340563253353571; 82024185358561098750453685051727391115085038366573208585193137002577313605159; 48275996354175945480800259355935152033095754896869786937461864294764294445220; 20801583934335502260706765264548615760306281805858221208904545224307811268419; 23280496810662297290903329807204632089074696690473828515150988705114482940408; 30931856852282361793399834120394561970805151587012676020497424351078777747908; 19358548378318936608591227070534124127081506654267854664131331170815796823233; (-4176088320547052194629385813977685267052208813221918677595374028266031974191)];
    [31374899750659937037450856398453504892756756066837901729106739148519770295464; 1466035504784894870586237109876124842922035912425023310961311159915853031605; 6390821823047464776353483396033832677056335896861980483021243734475550026008; 35319422046048612653641186326323905092362882686639202327152858261572576328604; 24204774380670974243602244830163901819780672500961933638345729618691887034248; 3620443907024058477217825665836767655795418496414675423883453617162963469254; 22628533005069546380206599048820044936404122448781215878804802937959857762391; 63341905262377259282202473373347646333031206986824034516010990507139713613520; 46308319682246058250250989495087507415820309213304117845478761036207417999108; 2671830197603533297077143537264759740946968734005583907181613618699904410924; 38507534516715253454054644724774607386796118660890555195356200665321673897284; 29671108286863145586263342972478314735425445109752293217861167594706403351144; 20867920132797165763303943556849191263269002752008334920566381931794199454645; (-975082376958118259373635932577894892103240373259325682644570156779915511579)];
    [39942222410405710613846605548715319798860856380616468084424872017053836395418; 20953312611669500112098251487133626495970751623193757362820187947140145484673; 27725434592910347800066223576271607518025388930777899688360154085091240168437; 23017942280843158923753249254776361465058899311636961654228100566126512151359; 54611316531126172651065739050591831742867151963840170016789882987293015103075; 511069526529640841662253728827410487459540209890496036704267844297056773015; 46767899932716632899681273732427913968809147975206415707299972183072506446707; 35542051362397325228858363586417800375300089987561795769320722969859165366476; 22648264365370722779810682780670038474832808516277926813873709043173398832138; 26152433978685094062953097998577637728416462376241005470078792208426628212713; 8410385449983953893833518026920429321610631001640229818139118453606969110157; 14511411968853045997239506321956280713638909702681486896713338060432514473717; 5802287330907568701685624201609940844912094356902013625691939444743597834101; (-3043825129659349098022594230495558260061608755740469267914045592718244864500)];
    [54058163620432619261007889609050901122465193999705378521149522613477127917518; 55874352053014901353166275201545700558737580012181932521564922101459562814541; 2683151910779539815758053566138527274519003678955637750475277841956629792686; 29303289486749051158333187418978107336063555918660390832463413536341624009700; 12669069027618549953385620866992149269085381618757048842840556644478599559442; 7304461263538573510602141228099173958573580941503756294378933477036723856436; 13919479098254520928705033219196830506139155652805130321945427767682311806551; 65904098548363525584767051456164884732537995087806681805100630052123144388042; 25549278022903579042438589140825710897353964610359263921477700922097734435897; 587139190477577088368548053982875501657601728087918100318547569942117397935; 47521692344298984514448821804661743863346096225295962393214786164421690947215; 16370177110083741589707068667278190233945624177671300272868296610245499054380; 44371518593173229470913159873642468431902079636203942998844585580252770910285; (-45862265474085976769336118890988781562578992697624464770353360807878036909198)];
    [16394032366096881154453202042718985456910765089875944486157716261812202804788; 25091281840661552205135748393579341584120703124592003105179293019326456324854; 36102523175786140278236649071789911222883608672276559672045517870599309363679; 39659335963211191364987455526308561108356234200632421640035475077856669271843; 43165970521487211173011287346057902705447976766863155367878323247471159304805; 19478163083829708575223696322799896304522538516729232621710204613906715239453; 25817572805898924857412132102869002649224293546402903164871681918365534202131; 118974294978868658184522887458787711435916336697636306319735471696949773036190; 9686379709673965946727990605271009074479350288407494240131651493727474116191; 26917217945059226073062941872933618546882980517554781443293160131664887718796; 52454896119205217061301194521677926391686696290885739494885229911695319906928; 6206349598635888542215413571859858238135861717594120078653550640224263514273; 14853299053548223025037272694851738488599437377659085292349369937480270840345; (-22733169271212083747781229236470309084152244450331343713541535899850875529958)]],
   [[3030652980257820293954590240644581873411659236202283991563565950415750739437; 3449896845806921515373747351251070124616437120332303971385432452490848855288; 56401868395229054535691691950208587387739596906738436181213638824313060895377; 4642187544777760426014229291078869996802812572723091621210621982573568416283; 31564825393479780500998250050456089608509240832440498012476558801281269137055; 10874187149645461702024106361566865739487984068423785325897281928804422431289; 37282842311612469960805436064056674841537671984698172811562053326495426783366; 29726232701548633057076358119726632364622052354327112241990139006682381870102; 46971128896547661805558631611637181800825331036140243478578152143691428722627; 30750203049064433741796497758824014003500859292204644405776559526256282103292; 33059001616908823677092050604591456147404636258522343850991711980924773061626; 30095789728686510414185747269452242263930257269264319369195665595659143278091; 1730521703763240906077549740250235894754696644946719536846412356831541532685; (-1969912558878760573057992447711518642589427178276583325307730759479508796168)];
    [32641263228758150355667687431806095122956256108730064648049172982697192869757; 52273704419139405159775014317290835933664475552332708366394330415164319248459; 22784061603318778451638780944371361157970582129272259476198527362534723470762; 158643954820112420495210142420966710415014481072494992633978811273252071643; 55194951025301780737678421512084749314833827876868927484614227852837330110224; 205571698811233974394071149215269246950953529783074741249669982667324983280; 21758794515165324672374706051115128610972686739582505390828946542042296400473; 725395427696856108693635844395456485819061361057066627258379283747312312448; 1986227894629498860521954801073285514650557914424732302652129908854965619106; 21721089456728871863707715789696782688943545905227782598209794171704381982518; 32410889421983002286039640567713388156863245747596668008415700490302606639461; 1272634881773400815938626950155901996404782291017868645745292744437960028581; 18272964587984677556651493801395980194728188813382440416080601888480226798603; (-29263436988926034522898988086219780677378428073977880159818453038970231598174)];
    [26993053454492735757774095526931594398941435313067218024451801426996192317244; 20756573878643363325793821026438350840612369149764266371668034898098235986297; 38705985193114890898454199516364385151726658195368381267415892709595852919912; 18402847244347273225915377843246553554701102484560109728297735147485952830213; 442756712643441013360350999483881952147128973027272610422832223737156801267; 47197355047272809956075933499560502192723418509580022157045370954150869832286; 13705184391817901673255426286233854341946287849770204864330888320063035888273; 124543080242130246514902766387866505655124364437826751860140385340301414192267; 49551522875964559713484501223444098412639227842782914031576084923341452316321; 296001823209290907722930853952832065452459689498824029955332594777306904467; 19632816138186647826691643987463450727055463110479173362735731518097868701303; 31749124371606013614852828998023972940322612779939687861288393636669923522748; 9153469100884199351089049604097580009127602620988011269700929405845026440018; (-7038650071904308047541455879717933982098200022237020195382123692660955046277)];
    [31520167665919384194696730538735098277674977480128774019718915946563876798036; 48871947419602552330465379555019735272161840172752412330071639916632071437120; 32272947876620292938505702532528625580207408848392112837882621439399068650341; 12585055500704948333766363714624936965793116027921823823304337521253514392055; 21291923845610467235097134284415550610698196061365695331497245277176625057162; 7441533562739018881952577166303183174635321292418170658137643762525158504803; 27438362130674496390568202160519419512509558555843711711570652371052425202811; 39381393417653201260620155578384283141071758154674369192664291016550417032630; 47194396623817225084434988238651216644534013886277726330770922185131717461932; 11868740826569474910708114811778216281442130057742983336822203279975194460190; 46915020587648272008376924256230878957125779545793864513343415841734121226769; 30238843956484735106415346178423352403503436066812257788661148052388859950559; 25541802116412143473970849016582734732365334750336707925954685921533864922188; (-39602505394819496359177376847764691785258841737297153086000469856542488054987)];
    [4953187230743962930662113245944254306680232166954327932822645132912059759223; 14955570584878506545981286824704959560776362796341363640094685063311756888261; 9972282546320979556067138816215420562312822775534370670846432895089095695561; 17160429114487190321156388238018344696322231403866442705708920524816938912515; 25194749909890808467313694962940389565743985186254284259420393002815085332294; 41254411425105675246300702793518625161890187119998552995984995172789551108194; 9441628597661938390266345467641607081521736754385274358649718079185036220740; 111629252231179437498190895015047031161481678292122627222701332475612762846204; 16602268176965679977422156475223563653754483305566151434249642223926493953774; 4339660272825552857878444001409667675120732054669645562315527929133738764840; 15222467363569828911246556146724969003431162410719913588573960107725989636732; 10637563622831025780743545510052544709519756925397476164720882247844014237062; 1302329571256268564065840548547838527851624787287898888363789675502677768126; (-3932232100334364343887773522721985102734731541504848242717985482609257704654)]]).
Definition wit3 : list (list Z) * list (list Z) * list (list Z) :=
  ([[35904166375489452817137140598001589045575754508954150922190349373018797885359; 1279495719222885974079209631177455776523641005347773824989822504223753306356; 10105553510120007415958807248023000799538869835489174824350979928078967951490];
    [4523399798257254590754249182144745153245192064643050249694357589298209563360; 19317262255853909170822862834054451308364471604337515500939721779084383984862; 1273151929803901058683514778108630620121713190715866493108457426790786976539];
    [53023978573388825142059175055893055470420977203361894524980325079488712172504; 25890899277777794414756617127610180843918778175322054633122450219204181758720; 14924080040990308945512093687751728432997681713477263295525670705225876248376];
    [13069972696881662464176143830263831955044910506444508678823835549512677542230; 20648901511354386670346144471560119421163808565540463620736109319584978671180; 3678662444988868290428286204227595724923626283289380395489647268402940260681];
    [27701212326325485493352893753817271532670347528308337298566744828273273602560; 4928892031596564213359763829271402428177986878361424634645068938970607564622; 7796757638968075922890343183023347906274253947359087193234918628864185403037];
    [14466642860843793828326513800482303337136844283713173435212251464585920991184; 19037149982358626836788698504872110403731387250873151747830505402370418782455; 4071767939496119506330553635228543680871517890384116442682494198488322772360];
    [32598543363116244584709467096520402073575975382641049445967070640669939004509; 15205064018746365086615356973621631748424862524494623253959034881035384299115; 9175155909839664980839273020015819116331067849712821143357194014918723318513];
    [48321362862264909384234854733589287260112973829205462179581146607917067621158; 16065494806522552451091938979260937110213804457877916974440599113743277740851; 13600486165858987366673831353846033838009868622353918488958104848038992517373]],
   [[19657949635683093185289569710211585343964433529222332533539288290160154185011; 56892661656082980073316383795158683496393820909924608301927348333889896713218; 450787860824523239827867616150723005913709490852919519438516117495014638127; 423760619648591351752572155448595872589012469045138665020417106509018459498; 15753186267583196611168381869960950345052184055486409681907443761362222391884; 3863287949850750776738750948550112858003634940115350739632672218824330342113; 30116262260728527773485038177770897515482410231427349025997866620938267980780; 6846040007945114076649742366353620283639929419856037054632734333780855414324; 43763671044997468178852977145482380452439240060315509565691628882425980792692; 122656827172016198233935201281186320790156471012520729400993347117173700224; 15302398406758673371340514253810227339138474564633490162468927643867207753756; 28040676740525517662144591203590805715400366239556618514568498426261382248896; 5195756966932353572695641860648259236753996472287720274315191431035396687342; (-15037196078188370543066181340436473531453238511240333720366606768884536068949)];
    [31304613760938504760582672467914663278822692157180368478417398855134746884568; 47883697631619232113968705988495834546462535128285694215750466493264011081313; 25270138854215059759713209793331384185558046066374767446215956636898882839717; 1681798916651626781349866136864258611418890785999064364040834277242015210064; 4782901719561506561899335885142420753239834041516780695744266326420004324472; 14696379049095755339791388171376284610001453835893510775564778094203642926874; 20595937106886926442254649928741883001509841926756898504725558832863584613252; 26323518141591294502403422223835125671092234715915683520248888231139030996616; 8310390383291791897690205695891220251593301852340355608049926952836197518973; 2087613953172067706062219258307478896506710964516398524628434616862752314599; 2661593664534084277515158094143419145663734719254745594294974721930617788928; 5324712592914303399342790796304637899766211151013367920582020084562209471763; 1439133920211691554558252975569801075706763583167692450871757587489004504341; (-2201306619307656300803313216470859311136648434896965118287350206419624431660)];
    [46976510156322507137269201780554059652401452413839958562844701649608332008299; 25448670393978825583576233442397517457541692536451699283561630611656102572950; 10202315694085751989444844602809316346487949226864371049836355944839820609412; 2678207365725327841655677433638693088491297788310576020047407744422242031348; 22646318824638641881357921892568699508313480623749404383054343655497317107098; 12369204571945410073611200423090580241209113198333011619063986853897280157655; 48372237315933186842827930115533022500045612664816086055824727842396237989232; 27230546123257261227060109404191429589232870380598155083673689962684297734428; 16884603493522484206221794294670803443280484478727558582683106235390476140352; 3990685296028354597605031506938348244553941140338996651964256296309108895176; 56756852406394573770319378496507824248645894986018127568252176924132559240301; 10818464199838453276149622525940381720619812992448233929882313436620457379391; 46052176294106389073060923672632963818045756097411315898427116411040249425224; (-24947929327534035882364431715975586860922024174466718634103110384653726748990)];
    [47918151996430953205299676746389129711498278894412353323055730831339548381201; 5955224504549288857581420600034742627137016040572359429290189842300485921238; 30584048608814110884876323819476159694893014808459169788704428909544266834042; 4018986992700777287121888406564241474238944669984859493862954531286660261615; 15356394698943896386166384412894221098281225302874573288263452991059231435230; 6573840905287040493119488882054015839689872358445207608978818066940883331280; 5973363241270810111740298879036442801936972129444304885308432886993182197634; 24904903069388647107557271623291293447178992461333580708995340304245300069218; 31895569039189891407398501132490886247655890075929152620230756834524743201780; 8112138316566074913765121769618077049183553300425146067826623897955124696120; 44339450010146332975011460891961724060473578860151727739452734239059430151156; 20436433222511202675059179686874944827938905781969137577549098754256541320456; 36697921576833083813151038398338268115640733675875701979746843290770705526055; (-4560784436275049003019160996346823153977299296543272701015187084522199963938)];
    [23904464896333608991295732748996988828164620261932216985968862997657500711147; 46107523827474150565775982788770309404087932091461514986676419581157816039857; 17096057258832195458614865589933764609084837883682953025901309668186250509840; 4099547389686106052459700636249586352119758629969483452659024665412640899667; 30873868157782718848958932658206914377980965964219738762116830341439306506269; 1538339639835819302457645895770668612667019909839925654805102767699478834101; 26483058537899988547419986344264262015459195151122531497249032169840615314716; 18525479806650074147126929819165591353050470183363388405993409973105110739240; 18088999282319246400545063756125394754477728433867325957670369552800521623916; 9116709462687352162754113591153385430176050904871377051998322718570537399156; 18244050934857823575756010239530135102681949802648447061055407553832756676138; 11590156157457275271271270898268662963237973797627335451401325419497350641858; 7532712778770470872306049913074189947899664893320017649585611331777497583474; (-14529282936843674666706580154173698276156612956537584538110746567752870812382)];
    [17688596151635222349324213639813592960789359150627334255763281722003281628748; 49767265718117026158193301732615241365293700217962571068230880168170334574553; 32903225737874764812165108845233649589111390585926081002685314273904665507939; 2045101544711212226472893115754462562744252417359484542461333955256412096258; 13990116044812230541600434052689992701507341238662459771955799011518040307396; 11910387516758477912503552826026242404844452794230521915444607107902545205269; 8092115210805969784082820398686446764034199992523089998632024617476737860820; 24075076922321992234746361549392046565211828814275280199629613295431742032684; 38875169240806366474757226213606903908829318957392848891868268249916641251645; 7950801291409355849860027502785914455098221986997061066574313963717035542251; 9303647458890179061351439690002298515891380564703273656225146629415565953630; 24908469236820971335785671999422403910811480276523922339565621056188678585405; 2842481964380349579823382382429951565880253609922184940858360479518051294147; (-7997387356666775783616988531649562431590894663117113802408521303704509720428)];
    [18958742773298937073755619970621164217249748928981220693078384958060703810681; 49060669014889618634034845030820105181036997350936347239322049348217814945797; 26316976381431149650585639290831755873132743075597338802178881888235265364698; 1513314582458208473933939430345376553782455639451941060990374496264080892194; 45002451124215748284439971396687542245510193725970008182669684740337401593588; 12855763466505264680418820161353380917490575194036512447455995141030369621005; 7908201306379372804887586536280397510220963254307650504240621926987488886986; 23196099596347635669423492562466768358650461703404068455374196103892239772202; 49281764471214699047410926138949995289767783035933698326294898213487542473235; 20456120122596824995815308912550374140714028575389887056858597645669422198761; 48348561798667271525612909448476781766709441248139987783842559304553340837035; 31576282193493185148200144224038325274224906930171218360316923300120176331110; 15832306898293350139171613724803199381720397231235740128426918821833516227984; (-40970204499702993826112765644020878259096089457089772869591789572364227174816)]],
   [[13692443628628542482398138298848103782249043847728748207160598387591474036267; 6535661448952062909216951562535374120699607245381865810845630213621355776630; 3221116772142742624083727028771474358971601256098553452349921806648502678121; 6208263965381156211416611019845062769820335686141228649456720890144499376360; 51143320912004233526329062066921228336122691730984584944346945153983038533333; 41573638752738996073314755199687437934388514953475018619906492640435621651924; 35215074171360599495311513554183369362050255979853498716401576168552546813872; 79912892331165257186915244178054374924636459555372081218244411758066676509988; 10141902596832731455897530737155442787901290886786784073151503135281078727697; 2845420785786208364321564530373069316984277483748875718425768057502464190204; 47922204139861490902245335038149753977151090474886031491997023347334535855211; 6498216567784718661289859193323956919195544614596220410159990686887351373576; 11333625346371571364958471005814275215787134733296914132957174657776833453114; (-5409753018684941368513499082385842047114475079790363713048968662137465818946)];
    [44073126145632928819502260833325828264688543470827754699842109261297194996573; 25708642289863751966302024225237904726630733908921048717331198880892436709901; 40540922634884440869148252621722709756703051378462659280693314666496775317615; 3238269794733963797471660111234271758561490258619816523624912992010659791026; 25875774501798991847404089773596300944305448354237728743572155610918221096775; 737785644194983602884051306707350975380201498195887426009532757054889008625; 39205697464411067466442016739643255105493767001190352377548807977821649942719; 7067429868909861116898323043176656832963593320392966769384079782979136129610; 9007716584792241951128982013693357878892067116265565822519437221230269828533; 18119161319305038196752109251648193486394508057278094571480017179019885121508; 43230896485572648690041329656217545114237389308595351482607632948378010599108; 5771510088007160762252887354540017042140212483754559069045606238234228827143; 32909342369537570671886005752016153638994418382103990632784764233302415151272; (-19196607660129221761747930095623945248023744447724016658989606294759014909553)];
    [32998196372564612992359818786763423324015994136376432300157753889179321890705; 22310901527710631603180993315816672899331474004376446475717230095796374000992; 18109303835630395787630502626210963119918577131317795804766374310592175114653; 33550486238620947412921445074869033562943852399949757269264711245130368844124; 34368835346446111186525378249164274801052667250247527465603408355356324847792; 11415879836723290397602038378208545750906442438485249568207928778015764490941; 49217341812133826448955453881485378411324547521374636735615769907197384015599; 84107562754226456296100342617910755817666524670249160560742889060474146399273; 8731306574965376137820201145016182216481565642814433227162276625007289468765; 10750228031380355799395600010695301579892027786679354611751416443635259520639; 16259531510815715398894875622953311681134090118929731660837034044764149733138; 5594406030044761041077817798396729445250279040040760296413420958217112837913; 9267217082855613931333058402643739591757977356217696114628287759941065624709; (-6265796028276682378326068759975731924489410994662348290487840069601868305601)];
    [54882909907635354958311263340029521311980981711637644057731212095996500430552; 42932185445836734984879765196158360688663229692937278561535355964359997581186; 14002950146191362336391691853127952812327187998296297373215960272230549665402; 18807519080352232809682830638900763343754750842887563751185336302654246557027; 31461763756692905989469611688871475736309196367067050674315061569004597009605; 8597760525056365235554654076244842647412696852160950712276373823509749345991; 1476193200191971513387937827955627609795327255299855359008607995634180366044; 52837742728220499261346424975130560323931557623828494313683839131871860676985; 14287385919609229133694713900519678940027166508893905422682313258428003654737; 7609457818716738820298700863503010663816809821573062271389919662937892874677; 17458813610501543653077919835743522923982008368770753301099101296774047344202; 9154350182985694089697790854593818912184322367800572035122382013551485418317; 16550189236425990753575431599850511108984302207695723440596483604849392349431; (-12946394326717020342904636498391234234271783973487903038263810921344567024757)];
    [34881215023217925273427507880129132732978197777830040111026122875038460546235; 49417579777138232809020590461442191010157021293872759678974198530760482863386; 51924457221791681464021085313618644751656621282212576244331576802390251737192; 52026590413378633451195530688517772553389312542337066025191112527323967468088; 41453209409964967357577265387819280006386551049969209893831010159514068059753; 31835897586719046488862468889223562355543899496669445746276215344547306992807; 14182665522627798070536439393909256507314854950704595108600242686577601249769; 165258144006705332710771096741482631601139438414596231315135044087751200450375; 3637920811653135374457355219084587454991574199456065101686569580367052911560; 37177589814486829947168091474309401703475947110596852190366849274049402418784; 47424796806831383605341672578544589181364922100576915669228225361080381142509; 2330923321818915458022973765092458164597078614556224047819247214813617688759; 28572496545271694022471440138758816579572350972650562903740608403878032219274; (-40479771892066092568112053043144188617318815994987735093419901138146103975117)]]).
Definition wit4 : list (list Z) * list (list Z) * list (list Z) :=
  ([[55450006886699097850473134521998543461614749775831529049808198832293454998897; 29773108637854595124483570339212019560276835812951923226431079033032799170337; 15606907729588577801453175238532688855551555005700646694899412825383073931763];
    [6446406076878883164533341186824663052309953784530127776470524942864456901624; 30778079980049155201615529508652736888860160867803754452609639299817700384139; 1814399501065543989991285450344580750277826651631924248166756991628314090536];
    [20388726441963995616501265826050431659074517628317917957144267293557041912803; 7603448310787107524506218212018321224487644903485416649714871099113076111470; 5738592115123494368940125811214891438309369763648996289221707701416725652704];
    [32048662158370501651638383871353832204187101492090984920718339102748595281067; 15304235558365744882426580047147558151696223105710969505648934532566549775692; 9020386853773769652644985594090712524453693747597222622795841107906258912142];
    [45797212378547381513255280383124068027390952090419031573331626895515316284233; 46170959685821262897940668782488472246405918345687020587545392297324936220788; 12890041101794885444905839112321442190340569784363004596166293224154870636308];
    [50069445886905036354525267026321278054845586200822544695567232631580109398028; 32706467871138529021896068921006586168628829942707221409086858788810751972122; 14092499999598705184064268111463727300232869115948311118595205844162126364192];
    [13820209338983038210678301954766448978366795549716924828973113476529949610212; 29635725343550671622581220109604057972338158337071629072525316047982955556672; 3889823357422247468368054938429982729893253224438268487854908502706521086022];
    [53658060534139097763126570635651550403869388326333160534303832606993035880617; 28828287057447618069270980224916324737865914454661600276217324721048705190377; 15102548164080838227610887880321960876745379430958137436397189385644876306409]],
   [[34085450069500794510152409520807677869950508039913904939590977699961040436501; 52278291416665193925925829527972181593462278765769350530558236265859287513035; 53615825733980772948548367096050363503345062540088319420197444300729125953914; 21015238079042441556647901032886551972006057870003678280396154145520591671739; 10742634172975019884088918295587651678359813468873953425960075638489660748293; 42180725939312433190547018791641543277679180875620231301357615479211825605947; 1570339824379695398227076922603240325029398562164484886587541591936002240154; 122742181294064064996162060502952134370238910371527756034615927690798015618363; 56936289278197592207448388379940564857095899452742136418048814013569647616540; 9948437851599216222549388889451689062196625432497982438502928493462403815838; 15022853057652344647326043703881242101649743261605916025491423341717099614327; 36480762338548923286141067481122636837201114870535015899832289188662583465777; 8844485165969957570092881842910522533833957081452437687524409457334522673169; (-13565159679398702102671993666520581720917095949781747935059136733616597031733)];
    [18488499022746055163872245557291569739875705170513690095816469389715453036793; 23809914591520344032642961017103405458690975015723957426748186626882854873281; 16206136067424925514743786672377011025624358341866734621171991574571822509206; 20535805526415124436707751819658251064393155960988675856833145756216180384421; 53150904248695865820849359465839024621892764040342746796418589411911786733585; 44622506661931133958049838464193585978509868589744396633968159120402828705825; 18413590759155747873582678243745224576307559767809911506405766256142805822716; 125748820488283910549922331964488621266445762570788774334895268445158398943860; 29578235339093362317394376941770207790707747399541188382256013173867802914487; 14877886598896355731924422958244275246965365231341492185512229653804658689627; 20652415459379768331474317900321884616715859799042722080362091749239860528893; 18951649070890988932425481683425908210384350998070400443334764905305217367208; 6595133839506468065750040331910677484830746410961125959402713502402493726333; (-8493365158799753963070583748380160566328422451444094878094333629362071552207)];
    [23406589806172960174851795884335653806454241620752476244917220156478142938335; 37854925133430588252830311134599570623631025784885083249593544768206604501465; 3102132907154010877047068090432815176799024835749679169861322684892469932634; 11138952826859055567508284614930335343796127225233024291788117336701805746829; 49857509275750841447013980401725703385421147291038470105375469466866703081720; 20323121580469997981023387369447146423415212203041770678041553779664051544554; 1628482864827607829527787909487851203997848471872505598022726963389424533530; 61588063798412203586960071327740152998184682422053569309767799492264410792776; 9412514974780462726100899409489372898906235314999574093111487705859028167101; 2671419458993566821689148307255052926481074595643780660367269033008874383071; 39296168171178137081103885231672104172332484511660842513265910517315037532711; 6030876373506246377896829134406852073169460440721251610380106390530144335856; 15886910675772434146624917724042986737561326565116677179702309861533819531856; (-25693525593132731297682132128562213882074127303703427725621572155768073750696)];
    [46746611402572912007602391311307157768156089528706237955186680096634201754777; 57183095455544506669910536860380505601454569015188813853076475494278909964085; 57237369653822258565134477653961989244521004523735476843709386158831190510331; 14102004676952719199686002157300627790455204205543355615819073314352014196306; 22550754676397918021905759658300618811962362589326349590044763602570480470873; 32311340007086306518801444202910278171090354144158098458021298942892947483733; 48613372214661466014322976397838662276248112031754680175078090642456522044446; 89199044789120329862265817425680222755443984973865950496689953865086312381346; 45608599826601088546297120250182344838584532474563792523364763025974346530606; 22294197986880804203975129844370736528214265337271358306587276434476901601993; 12162192485089580823080755722830780249329756839801128173885398659520046780738; 29222777106855554202707346416443087566714260590917926505012905016108281556008; 9820036751190287268295938959132178061730226451890220535741424029457624023589; (-12012423618995460455384100635084672854817906604788358566873742951307378353101)];
    [39235979450616431568584470375617041099138895518046533127971242992408759632487; 48261191633292948936869172744987459320920074650430094271633034405690439301938; 20053303691161144663630844373200081105968140213885315428971176211756027973208; 28163903331912103835363836733160989216603429598070256037944640186441911745463; 43318271219952860259398347038235982346470806683540517115212712449389806489178; 48809036959105106369332051406163009072078726805105875043427489464030625308968; 51759153675659104367304412781364690584839901408565772149229787427328315688561; 151325519554925900177346762015973901263931586944477540415648153360579704256809; 55432396427483825089396003638064565527418376180288064503220817868920241725894; 15004037907450649372721765004332732583857146820325805344259924789634630964370; 48321829278801638066428363635419955333014787864476435504620737344603130244866; 35517173766742570519651056692957138442045431880183091975971749354558195746896; 32747561825462758546681495578625079451017697940292592375924458204539033269646; (-40280283018573576465257969757468438587751654169742787155630905718087712717044)];
    [34260902860247632416664697601557078362215868007837830785086314189737776939708; 50080153573165491190568719303241486458388572988015542395393854372187567522055; 37150431228201391732789232048072418470727741741032978905141395612061238495767; 23638897007179223100708129544067087110135759299353321535092328221953037588222; 44437201978570600222328011225011911780585927464156908419219427487643704190410; 41193682632153678383176913136118880400744338896226325718336908536690812776242; 33430378100432486942214146362618459456232870972238189815600139968016948462179; 127399136148190471427252462897623486472673038304381300115103144304378007561554; 18583738949897860616923062639554750686370248719367300838908591094744644937483; 28514231446245648738299642696628934598191693775515924715430638212196912109863; 9328011915967217705249072434376620216901510404219346286566325509591546390900; 11907150476215933164501482320997571957292856993065260112908447871967672119585; 5519999029937056625935926311204603872829054538879378442267523669909518589394; (-8068742387513784550189344987898890134006068548751345904090511607784553872478)];
    [30886537925985998524254955874096819652783119677955825045199375216769416949702; 54037904725904619508111005987774813902206702994070596763696498304265167397445; 40679591326469949094086917588069172027223268458393639205291725814834647479331; 20641512342153134719968759190072140229840589710130296368365689762398931154901; 53195853605116801435937801164355152002539779831664345247502187936093968391128; 42746270505250990768660117121320705788692169494190938006214827263032560622998; 38227268711628822176961643954144192884664538167598299899514690105601720886032; 122803715804002745131966361167238445611863270113940587065051644112029179381259; 43318194702234561426002910945584407331210950058320955411736815728923341139516; 37377088524308087849105811387060048975477436828145526058845684342990973386748; 9391326416442678605764862020134100592489860124369604639162294227235173007309; 27755246889128394423783611878117407274871776928611198519898274539708867378979; 5010110128374673906668414708393219529558929595392448600877471258819018963803; (-8765496943431144492081145667988778858212750359062675315037153561808972274931)]],
   [[19639451821147740670698624700272734820894813909735291580470206199768700605392; 57494903421850047051437277431621495081848935660098712752929417894600320224466; 38766579519419556322858595676752159372729027184503538890454460963791571309279; 16477433498901475956628829821194863749769354384478998214052384455979039959225; 4819405138755268459782662796927153421734029262446485257178829122885728960755; 50436867775676834475393380511793554041083406777454297037205344559956691471230; 35110016489136824885323414736294505748931848433975781176783371292750242391370; 124570875389473546570564170782821067266584590071256495803692378458033141811211; 40871280708497732041716807345538928234630309091583681344126634177563130179640; 3227022740127660633335970181286830690632556194300041060904012812714887896745; 23948870237993809848709559624518947975639994410763228386453160163050722471424; 26187436815798503290253922349888112952925268729426510933057647718441748830024; 8123917381713872903519772247019854778800172896000159149660912129096884170936; (-23782936994492516441476832761273081810391748718465407514782998227477497032448)];
    [12469452200683121609960440379957844757586634886744101850068664139886892025012; 10489147278187110362134995111963226564141046001348941075622680658741593532648; 29540456520157798124063989271614587672735255987059369480237817844279892258329; 6662079773768890115624717815260342695275094580787398442314119671536756138915; 51786424541380850522250984575031372002548230966687997072060340242999128574190; 57096541590382694252220508301280430556279840287870278504941864219447250852334; 29674999878496896192217319602816741860967165259049823470242324713008144806858; 102765375388624975054105649384163563576701931289100814392610335353865374736994; 25949397556467087849190939960173009258361620922997916889585772769474756744824; 26423128429158499787660612253069205786203715550801731548303514509199508515614; 22245968021223052398186995303416784329812974979628627591822522398719236315860; 16626545514066311321845706479996769325329838731053068327451045618697127069540; 4791260555460645947144135340964032368385671849922149616567940929250209341157; (-4030348471253779603392642765276841288553780352914362026972168219438971287899)];
    [549689331659327561605194692422602825769416452111816234011461274565005995655; 51469744701391552480837245041655791053255331145812797331218148961728035441779; 39313129344886109465961709889097796458046383563270903710270433359322977416611; 2685627994265646862347643660002439187852542204496913722796462563872488975617; 21198397778021590237469459464856683860386088166826266774776817460804973594411; 1900340711497298433658146796952365844712577965398788192391828984483925459657; 11549218089970095349661483435336653883672752176302558966140910662617391340866; 9104202083285554796390230975932915815648412973326266132086590330177045936966; 13777852136273280679805409620113659714951598073254503325245206604898954680992; 14394340049322438086342186641851524879303646824474816867482179634656653798821; 39781313051793578483293242080102841328974696936375645084235176105438560997748; 8827876837269110477818213033517665930326071604232528452644864472283941381788; 377700472078946207054582389940843403521905367674344916073752244788742014299; (-35365697953087705380973473669457485918189148951501771724417054040398816051315)];
    [45113617814944202352153583642261178502360614596484279216729123193977391993714; 1980278042691965713981149139930452264163076071667628639090250557504770174587; 38972963138345067542640454168629713787418318893903754864202874525014077599127; 5218981077728096731287649337585687381013775962498905678152450164010360002; 18601480151489333215018227384034065350445246815637260757282160242380614328327; 45756746200459607050100289317253078238008940328923182784988079681552279454186; 45445796846137410532839294066628345835549975295818282041067550773089197219393; 46739315871102970385075639029227581041778712536325229232640330963348641020687; 46321013094799938347313200474491384657100222367775400245185109774204893588969; 12521663699786164345495310642538050633532495340440406956966947313870867996440; 37524561631802363384163265719748305489661920254553787912808077721323101549148; 29679241331227534347022179926922689090988836936201825704086640741440850194203; 29239799424655199231229402590275865031864071249660950698936256378408868582403; (-1283491228987206397379349427998019115771873010675517015575544908530259389907)];
    [6975916580616431138430993573433071747917420592434172169347774209021880766693; 27729946105412964655112236315850267932468036882545041507320998583854342562650; 50503797152775700100078901881127943275327485803474441878638091558984548885881; 35153325684997774807922846936672974280531555386284443457372077889718157805335; 6123816660203867009469211925308660434491264739889593187138057142548568540091; 67733489432612201606470229936945148976134170550067877023888656460620038422; 25864376826986910206093730986542783867874997134966906072355635090760050720974; 38307194241990439127964138880769045753090079815369868031836258462650831693223; 26443111829643252452669840822800048220955905732369921427266560650252424529880; 5341919235499110496125223510870157286592765750906336049325027709576774716759; 13516064126086264621175802548524671085798771269235433328228757587520584474158; 16942882832342969645980614480145461830458941950642720438434441302339419017858; 1628555740947013753920570315340357639175822365516154487748657888405931180565; (-6473667281458660866708550245746471669266421049271550491964863283527920394078)]]).
Definition wit5 : list (list Z) * list (list Z) * list (list Z) :=
  ([[18408639415301046201686838874843235575286973466641218752632030265278046338872; 3341191822178644076816838057143621215288607511100990463573532111231240246322; 5181278649232891901850674062023340613155089502339699628204520937683341433335];
    [36702443156538073551760730366593961591875231585749729043684442456472330641546; 4286972231404027987181340460598459587859762812506475664424136157184233532302; 10330235755695837709027127140480032389921386668604324308943583642755071182490];
    [33825002540684133839576157126471860058530179080646483925646992326648569471192; 25790440680358361215781074164305930673255281977075231804303268036684358761291; 9520353977308265901751071989207357649995129719376474903011980382635687973397];
    [29766490078062356793263506445277479941437805547176997042076394190676944428167; 5397977373608140930795183042729055110289146575673215517600864386467779114013; 8378048807663335245906954405602896644211170032363430101333684370864015295957];
    [53437016769927872568841524673212535293417319903808271186954020113016457973341; 27584757474618771307702043259749375929477050906563967763581940169287018075282; 15040333390342495588310696257865714814227333049381178295711648815200101810192];
    [23603707594390156937820040200570745020678187759173725370682006724400553413413; 1793048828625203286754599327124715215494165523712686694474331946454896996627; 6643477741211978154773802513671400329493070057576850160222532492811241851370];
    [37162078503997817175097659746691572479081974315996173503193074241865557205368; 17912687262097149032375877613648039350493753575145076469572738605166747342473; 10459604296113139672086238228968702907744835274250595609647260815169760992721];
    [27338874750841438619526070675517457437000999557721496913758955756474694858417; 32891240267734496322111156410229172374854322266694238533020353198417399577615; 7694774439595402364564058686998995713450448184822505386178239450008379093021]],
   [[26721402367527682574942110461580517411213448744716771766358148163877301105728; 9288387344892172799170744310978976179910527092723579902952158489343272868948; 10626199597807817598614290205599191602385856023655599483379471637963430664226; 840530859409289143282311942115802542437862627304679944260010022059003816627; 2569825270757139285136662868763529224747000882350011857309513840489260315681; 13281562083799053919472193196317294083182546363220126839733274201758900131631; 50013303699167049287124630824049191977706803839288048845953046009008783657651; 20804476587565631216388181252720339056197624012726787711140348446280384440902; 9662958825525315954157373363400426476752794014200360795726230938995189844724; 471663935566256760116439979180448647489899559298047375224640743423294530918; 49839670291607419398307865167508291548996137191514694393658834206482394471403; 6191343146350056755431575300773266532928378161335041226232787572940427270933; 23003054742322834942797398010579628238757318608976103749379805385747889614032; (-7995885830531792888511246593576912758108772764916489936958944874211527602647)];
    [54963056372161567893377544435736002562363728332386822033880374829153683072043; 27166693465051931478180628457191481819179375994284390853808326061634135222357; 42152004608694864183441619059832168414837504554890118117974418098876821889932; 3219672001097058781957526802220388682038771698896855598600078389040818881028; 20012820361158570500486841543661162144820751606307336983690691208139424851393; 4448775079136478596492917071025165964450121697517177830153606051624014167043; 17639952631850090347017541368546330937351520489219963046040572625432529537353; 21586117416893132242671282549459479050273002043047497181968183061307953382735; 32132112360853561115385537358937721433562066547362116814151939173851234105266; 14570606708159795019105534026538996716207099153239553053129158924319580255490; 39810646846645384342011708250469140534167769585260381492585290966577013284911; 20587993515775478414264293761741078644430908369631727978623563019229472117731; 37793856925058831145359748086528438246952947908584131502430150553627083210212; (-18680440894570368529191172719051626700407895446158346581885206598614486973055)];
    [10988524301762373242246727351929902921498129982664316002800509126742121162784; 28440719635374571293396157229875541269413226941353902928329788578666889313331; 49635959172788646166649070075888144307871027782755865072733329151924457734952; 6622519703951482923633007815842071261740547651940073475218323764253964281003; 7626219372791308524508514687560653792338954254002002488368042635864649226653; 13011786048772483321090169254478126959659915484786703781321295952376215872953; 5153074356497733105290824041964813201315358466205683032147516327428476357450; 49232790237447181674146504549656428252821597274370220937912413637618571740750; 15037982904100737922647049124820782353844547549720794931072295328804911824; 6538179178282055563909610585127641169616046163057203535815089892314068207768; 51240849224720740424214489794980723002816134312586108168212472946583190540408; 9635279842266311251787275940076965531816215740128586201993496805656361688; 9725384880046336310036873441347221334733209504587123024097556270865008675239; (-25171436775650333698917347298688681159582294122395369778787697559040716543778)];
    [42107033242403816929914858786264525642792695777389598268193718900875626922259; 37928303814505886406947356577381229247850253777866238309537883231964352586301; 38422677505298955306462111824956122623446423711678406916937878087178167252003; 1324011499888667615979052447644628727791967886445470582330362041348199186641; 36896263404375016237098473228692501673290440790243474210645281445039301032445; 13621994868263187260071074941699573302693855330960669337245265068037600593045; 32923046996340398953648742628961522639433268891596391251252696657447391741118; 23635913902402076632495799460188561237852241532706446267930282409729610832523; 28182349400407520468843753649341274244795960014815333747013152356541560624627; 24486184492817655557677535688638758942494489352050203565949333183920852192692; 56249336386856694894732405617067523139215718273120364260747494411021816826751; 18057263717955453932476738084053055362657349324831336135390415497790651114466; 40909403961963194316369997459433058955309841017551260560131496109878046933802; (-36849528044572140602441548756088275653990900542353056234113733122729126568702)];
    [20592390056300107960862250191507484939525127135573939248487287843879429306062; 5041203799155760369501752367479807223657485176117900324814217473160265307378; 43507817662579795150701627826049653601043879379310029711522906734546829626239; 5073492555337542215737831410058621401935283195340264333893348742127820289152; 57529460080730399067364773465874279639899945168126354399366642746385634351305; 18166177457778020333306060762784246397021175713270267254996722292950071023405; 5628231470077024207673001909073961537557422451736105992222352016429689188053; 47977291647865409414198927265997474513380992964463729930581486683381626830823; 35721169127654989053717254073265249736038247327508813646785196414989498826355; 43232336093171521310551616892339724803146863426149820846402890626930411061460; 11645803621229136693183851047672120565878940219249734844785423252610714011346; 22887608200699823053955324752037484121881721848469988064333009933181878100771; 4142164326889746740421919326846652216660722120795994439890482528175485337745; (-1014039384663631921060516521416466815952590540839407608164535415410409951746)];
    [37259659877656971759273699805462046629839486429658383653663015355645536201169; 27833687810669843820165956907821830134714057233603747676885043209498540668605; 43646329417387482426833092367742571403438423864848190835415077002329164978395; 2481184961329303929268671460396253675591798745634929018883133271235741591479; 46601362829098253457710094726657740033953992746960212270186183151536247141357; 2414539897807485059049279490456098131055682825154432088299221265515157934307; 45961500302303449202454364397718510487014955512286788743605876307472972548554; 15366092698674550886659910838183029853005565445281067902158575011013732161934; 41467536222125791259860074982952680993920526809232288610870640251222930905247; 35131561175468117410180881311775353746011676936888748279043210495527547081632; 48599398899882484986573701190051013187930816658556878703290251551097472518614; 26569475335720875656817781017671956396043879698631524490493817178045498156579; 31276697487631721919704453039880504520678095037885874890227140787638552257017; (-23364298989254391418499278133596693726330069518696815150611341099164545758733)];
    [40716425138725944745186331899970009610267626729218118393270956274853491203124; 46769152930682528968583401401235025295039214644177585564512426226384755878073; 23801072444990788178430336282785662748504348215113831342470851769019132556282; 4489430682884886043708947946727971077980548751854788281230533803705653921415; 32637795935553376679358139476437654352891877466434879767303417760286675717170; 13331250312323214761058250593147107236294270523752489858913466226379218617920; 53595694191115408506162974719019426456665209420674602852050943052615162879900; 39020295799568231046827763947248331384063193070462153788857594448874496385518; 36079330340246763958192563047286354639172072288173221406358330050435936014566; 13417402702093894084487226455669723038784237433061839795062238766706710756326; 5245644476907139089913184923595279780069746923759998263711320579465979376998; 23117092669060678286135002813860961779763112909313559044701589754588244801468; 3689092960584206984822067219482340047765747490250972599795395846580794452972; (-4237497576499319298637041822121359664813226306543911422161603075794979583917)]],
   [[37510741031459341378829814964903502667912927266993467424549080808057139144766; 57303500313920857781889356400330248464357243021787478340933447880777082073539; 44323749410886706895851515328110507919751332665019962926651783519618048571027; 28634551582876316345477360687774884253175665627386073583030347449543025451601; 37049329959993162127392962001350768469556520362226846873666530155865310888266; 37780709895830327784864028954090423192813940987412817272684344701524955255587; 20258739635246550838725633671808283410039867477049239588378641180519619536229; 132197742014175636774563702462323652195698251148187367921755398547902779862420; 506259600552664234122823237284892148513315560612537595330631053154698240881; 28364031218443120962989350011236883607481119318592955222513162534575352089249; 50621625167764552943326939177584214476440180030027165966743538640203827137187; 324375480093723311122620004459288276407176323110403631614414411163961183632; 32797658022525407092141632574581392679641950511481091909278710328285738252528; (-50103531818084571915617307082295737035933989368811005124330227326210454264303)];
    [36241354563762173459705108462830400635564419268406145900966660417613821977637; 21485101354679558701669270959816344644464678765615788190638683578533731429966; 2488763842352170441935123957493445175815343642232884258190770148830887173445; 24303140257629224092855431329493501201034171310213017150045882474948835371739; 21580954225722465741183183212747869377089978193632687721068183383227502783813; 56717020477929093904918656084288863604199597109025776590620323968581134004692; 38795976623519827132988979921592247548153573517249690883311818747110306706936; 155273826063808334502544092868247773687177087194958140560619082535287144110861; 35783385839405615123900588067777514519700935836153049717146603195135532051584; 927695474089888352207820684010681559365032022906896951493147108566626368349; 19092190383370295299248059255254424201274634551399803462877413234396615610367; 22927472285690864555288004395834466033101165922339116850230659774109368279397; 11951193654766301473327292120841471053787449007042383473097118280241851691162; (-7085072014355799511514688148142962786759650286124773965860363209247348390886)];
    [20584796599643323532861987265526248228488799407283500188808238372131189701480; 26478740800733269288198131365468684670960535144929794027484143547518195267108; 47835925833525280752292334920954784138162618353042094504951201546527212052887; 22686105575389268365104319318752809957907728252460748062618862167205234798218; 20703459624551102708238845512017088030523956930533995348850237279534078092969; 7973076282867361410902273884057014895342791176181072761667946568927548058663; 57384510292749316862680947152587053498461169410562464962593816592004503661164; 57557363976292873829657134710970002756590753492046742152561854398758088540305; 52003267248022020833572258436484166709025739694352439990180294281862265566246; 17105989979464788366952437806873146850808933733556511545239740843198189470093; 30763578409683919667732003095406257818996330910312182863627827736963430860030; 33320029411006827166843040836520664900646865499591048110684207919571391450500; 10937914816316167284099754304114721158037423093247686988457596141675008528028; (-14069714506032776512375231680086304551373698994967348940801477069413630197412)];
    [39134758420864184254969116302644788663556954029588642642423917089530226989597; 5124259569483350729196958378822907526496602783247669422492733697864938451662; 26412484826164303239108792559720359810205154663459101169743836835737228105033; 7318873920311493441792596532053262122309637927698057804996056965543049450483; 52900624158378372657536998484633049545181129956657087484366389735746988890789; 12110045150933615404840313287980207706809580160065567911523957405284225288375; 10808600097020553302514791354016194306191526005181011978827578716656978631795; 38257821708304200196840436388993886787025861422215378353762806343164214838001; 42635708554745557915189039897427982066226211122699609281477309048305947067654; 24133547327471546274093894342721154392301823601000173971730436831249375603267; 26488139332214069418428205924912689734975975293197986314622552900009760785755; 27317957854989807894387598878930829828979865271070373329751644887320123154035; 17904624411083207774349666472976706756173834955558197034928360743241651421091; (-2344410612934411660005356110603043866302735337571064105501343797269767654530)];
    [37386868568128681599499830859763869162133292900805977973436494315455022169426; 36563616321823734465666870349235432940379598201907262626645125270466793116054; 43423105937463900435806098988112075418278246438185834713378092910060282414764; 26453090651478388393115059105251810276555637987246862698963277149890760437105; 34266794709623796781813899770368272604087885277232282350429514623518865385767; 453537651982870434867406319258152276917230582839074606432844268559863189873; 55409140474977484476914325835000050871614314547074892491642929437132018606444; 33834101904063870626082646584661147118887246766586242027802272909026706975713; 55295248888195009979089406914578544347264702811935756428384218476389829910514; 25700730794548871748716146398969632484537519269104147238531829306345537705226; 48739733390817994057793293286600151112444631171866729656780213717415147790951; 35429299287222740970525164927144563186025840478888530011463282686428165557131; 31474101872252916576219146379669591107127105045838980407208875147032140901811; (-30781047704864008647059799476902507504365741640167289960522531137925631507219)]]).
Definition wit6 : list (list Z) * list (list Z) * list (list Z) :=
  ([[56583979703411916882932154846613088400979015318514747688785230390140028694546; 23611269591963925632605943008157366373867546818215825592950257142194265697442; 15926074671343166387808662326101117807794498056706220471247196665296427453978];
    [47329309199468658306920108621065283293181324725226367159337271290951929759119; 14572117057889219670973223321019007333407611874460502751878665398699930821797; 13321263658101727146961124715366327166929966333163346514263192001770074488115];
    [29074486594251431032138575677643543950788372212628932109102461042232615467320; 29589761653389483168434950816157129106127182538360621362736848825320253410590; 8183278146183370902836892685756296081491928871248049176796349645177894268429];
    [48358897633759715225596321528238085678630066885614054890096897164929744758091; 244816141923626129075189692111891232748669484237715867145530404177044323921; 13611050667980106917177522351462076553671592806790456624336118114476141070602];
    [33011805266832834867446826164368075395194966130656619557373218252942211163011; 9296539407971303300891806674352130606119372643145293389883829812166877074897; 9291472223607446593138996228795393732292147520081249322922496719327939433087];
    [56950275950433157182236810161485870920009772885816813930959635507433226138309; 2579640524702885540511058364958561985715221507235661166941121751959126557329; 16029172074750818096662315907237208125399163798447478969077488849115968272812];
    [1727044658732512573462744313340027854716863896147124131278350608921210315700; 40982679939640539371388609244753837178973799292621952751130632038921196109583; 486092394700542144606202359459634687233280351615587910767970001906020795052];
    [6566018336193216325911265768803656355213526754227263191813385605921770051483; 11096521397051461516258625560468427906956618608046260738192592185560704649432; 1848065457108810184147628630734242994985715073823076296914976876770709102320]],
   [[28582163575878071020286779611073458927627633926762077980797377317166201949523; 29517287490576008752010229265386725675942288741512148107897703457428460766064; 52539149006834560532777171946138345711525187380469293665837697436252808788034; 24142891807846713250655943218775719250665071448875653491969962961710841395658; 11810882024622263479901055610517824163361296948526950448052493495722935372364; 23091353603432422827681412158085841907374937029890206001863856280541276749048; 3829856582306364643186059736850484896939537967564893432274275700386107089643; 94456784595206987343549241393176293905775102115197510679734333526640649539593; 25882107710519272943946327945149215929986625303094868295742703660847957203579; 10718067092165294738346564925474527594023911435745205223528210792373200493553; 17167777636445800658909376168723432378471101900877938801943588063426691404278; 16583430922143654943413410443049883515707817923682544490610544144472593031783; 8475401590406063993181022700405021716677566926711251292013680595956357483928; (-8752691680528787167042144957111676299455310779313615796660940826348378205174)];
    [36071698920086746112166822845254747156717446428879055439355086173224584150218; 47492361386564160898139850383313216797154638341741029980735629781389703257235; 24160158262318652166055475124208499876023942908948468341391162203812283364491; 18457177861503383375022603170361236532923846952118561232929110946889306563543; 28976415122885630387142281173175405397657400537657004101389684134947929178976; 18641321385167250241716478951812392481687016122927873202529879103862748211520; 10324019553993633710991521311369510498732137581645634321367938986511355937328; 74210295478798896519483561431590786055302733385965505394760232895017169312168; 39497545203316437120840691225572724649628849368638028026106912835137508222642; 12091927520346494284066705071905657370525323710578414628370941490632686145126; 22540713919854042019778672429701113942418670721437661196355144933414531731700; 25307243899894242070546710539423682459042106689890170423743399060239873534890; 14043823741609323994517877287676299094263556111208870424181536600271429823393; (-18490239505029549082300154359228564121455132353846015804915946920254671580868)];
    [6664938945656958224937745274414537263586471401885907820916253978327430063844; 2126634075982654318590492885153132310981526013601685661016577258450272533730; 27610088071399775076100449934554773983238714345537618345444174871087974725568; 23293609700580098525667868991271860774086557906111598223769433253173537605700; 31363001837800039471319611066105750370090921575736833241141514177068375606302; 29993283503103267682654972726523186609854650927708289190153056787848331045012; 47220646121815907794474772450481390247957728593737447431959258172119828497691; 106736182406812748618083821548164863230981955034741284826949762244778638875201; 53264494024117461872071149989844065371016704943054816425265207352703052420151; 14956725431396189863193498174185801440927394958692926989636579944191101772365; 2040927918899378425327414896791054657362763935823827168107840176591809110529; 34128134660875484853922266676460918547479223725904017674876705399864928997524; 234949728630811476746933383581610390816474300552425752533644808218256260951; (-74967243229549314318777909516844802697338794764646812583381724599097399190)];
    [9386069204832276100165517633266276430172753285224673965338492703661950609068; 57343798412003913792252502758642451420734231748095989676290104032076116186048; 11195045567083564378250110835404684899073428959495464142647980664005487163359; 4303941625324357360042989718029056434367795174982309737751509378379213051565; 28345484264369005135702680479029290498199774324003993219325702465458016194006; 1343052585428039914308455339023304044062546447715879539763341440776380298286; 12118714384209180114376852618087224616054707500668374726990162391166095128834; 11229456039319017395466107856193452198472415427662391356944998216503591552614; 53098808835088056290811930000129661286236504837020599229512173932812710892107; 5481013254891611004735886587392837259560572805829861989004170876697305935803; 28032513259644326965247567192784660434499493587390208744686455489577270027447; 34021975266214796476832015543866879371135458834595867480944729989745819518962; 4544612869038832976901284894804566667201100724230553131340537217348885160255; (-27765122815053701255522201321587018665159481446640282677756269896347831990377)];
    [45727292177295306413966080005773449597648964923842018071723442171471990488459; 3266123485712394335270968155860154518072166567062921842076065006531464153670; 13659752547069494302647868899456902546276006214005595188339998103890783184939; 6061134884840391056935969139709145496863471715046867285336417882222216753921; 27868744744280897901573709774355755204162794936287682287093911864234003658699; 36214851245586058820960977159013738437633796546376710839387688849728126721257; 26366400378641901705998598228475289792342751484884317238800769280152898944461; 85233906727318417543446439372343221746076211247629507974610398133514088287231; 20107472469958876676231038545997114605555907193806073623734554073739627969291; 6575236002938259135500109436350348205303259645580959902103201849341494263430; 26416147125530546809909777102670067192645142000792535012173986869538652013448; 12883451550931601526273491442582192798942274302542636967914020045192351999293; 20863927505995352050963602081804193751487470299574189942998962330229696099132; (-1490229584715437130018316338384346330311167877852556705449512147092485682272)];
    [54583541070021138202884579640233149354539529514564220786273283478616282463571; 43469789974487156316309407643596188851097040399013701578627023379031945452077; 27978018273629203269235517344507583592226699032916238026743656837108239286661; 29528792059449383320466171127642797728343326797571865274210422635822365858277; 55919255389918952172204612077396700318117446422148980894991919550514365446078; 2062684709773761599075493465133088124280050332564860646396996076381376387998; 50366333771451279428579990040220193456428983252809927198509243166690239110862; 62579177361052409455727417244495243070527505571818319460771019077606718971842; 51798422862254657645490437482072754829286136598478593142952947751360048181635; 27022743253909573264622803701549580625001308166430010867547207553730538669727; 48855541763169079672715150598934353675659667729619739268108131834001844164616; 33188779562302219492333166652269176291790646347659976726931904081315014515141; 46060287674102611216504763570963875123967384190685659145127723503154275330016; (-36681955624483720179382503965254885289190259669517351624733571717960566951606)];
    [26893906638378427820269402226975745300041457754729633179574373243303786072539; 23888113636819035429926907107258444263090323522691660954731306854220582218409; 52388233730131332653577092379127099622093601406324460593190295472057566574225; 35247790922668274115301723875029406567761872045321892015853931228647836497529; 7504640682750494865766602099694558180234274437166881393234666581151566600031; 27452872345362086304255655174631553386260135789953334202131253954629473629723; 35795190579417035865136391725868150460488406220089305105481817125777294410959; 125243294659884436362629322363985122135819076552563850182956947774039686976469; 52998977088369736905768124875966381057052033632888040836866857262895596338798; 6790703453718903969904490296391874829930542267049734549634468393533369439173; 17768578172723820150824296181813793606589849077291206515086724189060245689626; 33958010117237871225232638327108306637043145018754518299590319875141997045936; 8253870978950462712204587154278066583287878220605713045229328758423268321250; (-7331378462043318426677463818361338787720992873027187791256529581066440315669)]],
   [[189355175404241672738129259114556965478340615081311091777345303360588540836; 51767299105794865359908754261640899704919154549996018629901376258684159289317; 56217523520603443143010672655098802597879100565119535538919909869470926346778; 12492774230741211389953781748173026298263828769862320006846297350146206434907; 42585694708468464723920608170010917867415056338389835575483172056834577400899; 9856320529048358716909952889244935712709574061713192630874261850014125483718; 54039210282800242806968319858373079249086218079143615478301061134192479030694; 44542137553892493139380985758354817824886640047668034114105743571281741217490; 18987794899438714289920334556191951547782149702833090452336676091864917337755; 41351051003284455017038614649442416012108587156767175441728591007617717185183; 44264215806523119292695428019256069196170948106090582056292054191320215874069; 12166041058190003554573501884897535736420672004375532738907382380791097192844; 144770828532114329805465394345493381768536015232374206667102113094228143147; (-39578505136796091286380305169022440375008882834946839883089242470634530714917)];
    [14160459449409432346176007562822108240728702992215244509282193488000767962072; 40953833938605278231697173707354259912669188943485919940833211413684494670284; 3394591275133276309719898175062269079256691650506748518053851491169047419801; 619306252932105381684861372423337393887410412422887624131450018725783155; 48282530794193426281863408860408107496729661527109718795922353851781480438773; 46287328855712474045030015998105187186186620894278714504204640067164795588084; 11341846833154456818046901546449065027545361808567733969663486870669380385592; 46626569083893555235183319035761629035652515124280289754439595770000235165533; 1108270474408423623989327653261788235682779524853480112750717939458063726177; 2830926686872543902738177141707971255566396896891273525787045125322537071804; 44887939519060149972143510685345838417472969876602970277868502360612433018971; 710101629317218151398813450019090805259078771883295597697649441671899772936; 10978882089681638387249005347802621038203319194230212238077113601040151960334; (-31752311112412486588742930980747392870473911085308735384701233551199648991646)];
    [4068261697406638961935849621742963533803537470089883744480903389537982658853; 17740693327176817854801454122587194558819032432129012706849247534385017891832; 16729815229498189487242461362964406022806685772887485180222678855059630008200; 3463425060193973262914242353773852759856820134183397879523707958898911384216; 2127547919942769770714994066236704968306238108341949598394864481006090041051; 28969449041262185039672479408915642504048493149140435946971631395134419143145; 32189470693828697093545133406782243735789331572798106362293972271296460106564; 52466197918488590452422418927519561952173710775323280149443379313134503234428; 2679604295104516969237211370791392026178537234667200641880228331685088251177; 614782647536427208994926057507174504519356546332064345738203273768674191627; 43293777309102677995258025207616252872134544668274746437900977629903024852799; 1716901622679077312781605480660521143135698306252212006951598635580285820364; 3042183919865118491314384853631889449926684238247839685501379274147363840763; (-13266219329400519913659505514682344155396059668234130432766592983137589981663)];
    [11823766772564295466429875255239566661981081448176083546584427805840615152756; 54040755356101629851791062456974045253014690287858169301317937866514626344693; 31128017355922965082790770202900623303846959271603227991771563728495435303234; 285870189364406999745549863386625712940282806166450692143230695099241833875; 10537018013184396222166217635560326025797987496390430385433824726484339949727; 5436160653149483979759573648830811996363414294717389343918785024277401550853; 19759697800579192659147165726808565201270018305832984694726860370766937334929; 8215250668627249499935997979985467860603858629210767823970736466362171620504; 24178234581589409111479767025486124467431724589716348328914667221834599210066; 5665265766504085529307929077174997820045497299859141974291024907053746275548; 37305045275919528851160939937003656648586020557607484413391053001945469466441; 15491709079017986843369595766046149564041228366111632945774027939425280533761; 7618588760038981858005834826622827730152603795528427927049713116416566537016; (-34820907690377352388434133733328093468697673197170170907234827737127444190669)];
    [51502639449004291622700088031154688719483163480862436225495097465744471100900; 25964330211653062987717188781243886463821901684982951650673786718455132103697; 49692888505539991589651109477210428163537269227713792271642992840678244772954; 2414697957568967077911145997156999815641186720008237343848382311398424061518; 158949224344721079989090746273388388898555660453387688981054909137182115198; 50442189249606728726948074506066400813495848644405258574424736911418638980999; 6413499043227794002147077988781258122371902665468448542396052461172686484981; 74929734903504565815395757677891299704162208674215926380815117323484921658380; 38595175135759597514733195818257732859538145901676174256233278837725898304670; 136428077866632000454174209916617716034969418427574075208189326887041715878; 8362105337462827202123473773406914151996278765559877437066854072415502162192; 24729068743183300381873541334574010529361499217243651999282176218458093488242; 7438685994295897352258472354276281198329242707188429470398929790965654394179; (-3750108762638018283303127497936636332207095808919369934785713285146444953171)]]).
Definition wit7 : list (list Z) * list (list Z) * list (list Z) :=
  ([[38317642312210954027635398252908819991782675198528889188269792595252970193743; 23097113908792117765353022338247492883058008870796575985241541743907938086793; 10784848218395869920292822791680581524818814866095895988715917163643439509101];
    [11657061758660818173365302068352874721741763806348322850356254281234951842294; 11001365842503506948721490526832533254474665531595090743420336373514795233730; 3280985837157308184116527246960332730354618050931171960018407538725771299191];
    [23985166657496267613086509872757854479091306825316675897360152637625440347177; 1208396550849918332130261849026435588082719176051827322871448807218028302069; 6750842856831836241370098828618677106028000517204019606374838220397198718200];
    [4603211022261203990029032018990026602136132108028843195363461212556367609914; 26343058502685098696771081517605546423913697030212586637135897261884270638409; 1295615523205436764869019877848326327515901795960578192609491277454508674846];
    [26538627210016019766764368541006200602102793929170223190191965926082757269582; 27757865026824960357317574763503385902989264327823257981871675268642443016096; 7469537505792814598105296765885426770160998761449419911272941340824699915666];
    [1005716063392904791883588418592187279850541718168339086822847286010445058131; 6496345168456116910981513216403108162986544769032319757679017849426438679316; 283067914411804708737540494520004448335623350787866813153728917381533711724];
    [6960581351514884677117876723520552174148773258690276781406344604162825298297; 145638715657946271805187436155257813748227785718655805879049649768628126523; 1959118799017603199605679240874507164298576360450658672944609542723125519987];
    [46793189066854832926531855970043131821266249646052524465103067372779906799881; 9631241551035261936142599140493590897617221496797862746508685963679784195369; 13170367780689567329707205594316875758942033541658496603677193621171692407533]],
   [[21734724549841690193090842476809076716419456331211857741265759957945129922704; 29304975373538996048835671269729647815982116853415896625128567603603329907841; 10583655845016970166764289115332547933930132586668616133897282172085456586307; 45815251934487207371510418365954060782907225448386503677311654813516291343457; 29761695249407507917341591927125615434458466688635311798881626102927244825428; 11644084630999187841500429149414694892292995528388860365293954523964249379169; 1188546481530190715805692539587895498683965006721142269860909457605512159323; 103653564383070630743716892191863741441316238718368516013088692825296416896214; 25548299770131882118678176275705197707188942033550308735119582227938030818446; 5440570974385612174269945808099073569621395218861890793127482590915332776550; 19178039404390537750577302811793067500528334101966695664984343930841788239120; 16369550314637046262403278085682102536977577763922659719611452933267381129090; 7199617980916560768724777954746385615627828608721315126921471282040794414204; (-9707260248264113263662109692681864035915243574225716320396349498585258981886)];
    [5843582063935592337632194040932789533937605372922915451040035846805699711538; 11972345020499489872406592055102180129353682342366829225291971826785066244741; 15464911009939644932408303999153126137388591718411462870587299879124855881301; 19334579579434208917812654662420007440124920138843358622618630562169265860151; 9364263442271880055409308592603969739350128980848985529347560598186416010386; 13142245941922572218916453382061412677576252694047642705952535703919867039259; 42677421589317331044431818531855290880471045850098415932563355193080174670551; 68292936270457599616974729887721481719768516382737963262291803965374188630886; 54364077334196491516608262294581101518799423701658105544862107116122645945027; 2501336693417144633287133799354739131635946287204269817865176862637846458291; 15526478229923868037574201810984918883452041443389395800009362912646449400564; 34832670167403280260526335107376504273157735724547183418126062829692279393129; 1567123458918124720377734209931566208419050814979119184064967918615207130194; (-3210726320706487601594011145270729297349896414866691935915331632573921637630)];
    [30001687184291412988809724842551122044758922095287536204847335704949115767033; 50835770704986724242436677611718431048705647431520755367710246538243619075335; 41301806460266493979313630437308614800512151765196518060053193407607915169739; 5198280851686250160666205719764917626003386212293261212017321677803841411089; 44937483831026781754297337110781512334041880408471974509147891399991174442995; 5369173689974503841566255435195857125472178700643400210719993599603167064618; 38667284985054475799304192856602501391329623186157527516160821325997616324309; 23838344951144347851127505504550271726510766625854436745166138600498954357446; 43007265251982830121037560523866604797815708142209108057121272207656234763157; 32057444894988424006054588262516940822859441612453568629112010077665866762252; 38539875982469146712306722443868294180949571778282693086854210019212671091683; 27556025206042127809622105030477053383966954845444997111706547227227341911148; 19971335018883101866086919447879623624143233205601062703660446389395505500353; (-33840037110445983333663125940530231523220238195727321342875569902081429043996)];
    [43866618986390434686016995101934850089516357370165420144464451421111130222578; 36635387664828665286675424539055281868611750712637062002479245016847391939887; 6349708710344383996146527347969081848726078816462531480259998148087876946263; 26688629388965448611980592741284482877019319497969302995439649155566249430913; 6229213999159357730715803261166779686850673442650950048056771366586491821604; 22798046841403503190208612443358608572519586599011319103506429054605714180159; 50801871372332358658504763792216185145330851646935775953544905761217090246318; 108163397672511339906280623804438863326173081196523139673153650948350128594522; 13709341923709309967492043140272463885299538205024475968175734008476103178311; 683184743441254368045141620658419628582719178373093082268791012219861492009; 35212562046605377461744544073388124477919840720052864932965308643413258151458; 8783980320407996141204956380582413510582459362292530568105628068899730600703; 26679819891103165050389970908218377692330811799919440341373144912118987357199; (-22281761556358297092574566374320912855969907514888420658220087484207662793074)];
    [57259028782949987200788258198366520887519292550906864302209040218244084726337; 6568618045493889384521725646700637332106487979654862646506422022261952963095; 5294241461912679542201979649535222321654092259657359443717377837512149888366; 39022469952547114025546012550270552482301243094558435838318024020616385644866; 56077837242160717126910413136607566287753149110841842718234655192589211425095; 16429676828993363673030401595963122726138267202370699218481127290325222880056; 43582931001290119465596070890283678920359844307550213065889491071293611754982; 107714551968931534732159762682174498915889017904647875909493744737659235942027; 5349817875572546767281861081671852933708550498947984576164352256989881043333; 5127977446082041266214640999108989485792636171661310901911269220661125112913; 8096616482483914689400284657945860954788307184373581490083018742369493325828; 3427786337105336603845425021137616881028800602842948215893446650614355503863; 8007531417191986349759966409932986564900908521039950747770941555777929355748; (-918604742078488801393312549224029203206463765217398803411104038917663098274)];
    [919437982141481641041847648116570885474652493761564118577518432517059136696; 9170717050754847961382685742720225207844203235850815184444956538795231111669; 20604107843609434966126061680764411877078995527198963235700570444615792950049; 50935968666468519390453462981788164827504035869818986934384108290026470386799; 5277790693541695499813507867961059630227913059388995313284093369435999556530; 2945793086397884781297805960906739960700871294283969860713134889934791741065; 21355973767567285647704266475499894739946474576532542013051422269320949871960; 85403664670673279293276134428343137513748348572002102449908301460247100060256; 3363231386806071696703638457995963239767506299228061899313448245464510125489; 1878265939270857520103024685046572531869344943405300535733652719800064332069; 23674714484833673671415939749907453607344368808565527370826685779826479312931; 2154921693476133998952313185220812012855489237390261579742737149040700662736; 375974418582236143703080719001159174580437923551347132182162819048764454759; (-3750068061261784560752458301096500075651656261369703629860965688208517073201)];
    [48882273411393669122044540803817352985557027118982854238955416614908556491266; 11407218847596422755991434262659321162615585973279975075808294900032260014207; 37180021396394275357304374238711520082663363706803770086598812796739003934441; 817905319816825938572237112315729600206661126874112990993532349361119253491; 43389205020623513800723833637057831396466849309685839574452477837339143126319; 4112742543152939724686312058028758298770917285904753449825847734774801719726; 6950505245051760465372155365046471672691324588751289183018316156763445662135; 13500986793712784074448879235075735540421375699438993422259431881473222441730; 53308703378931284557630138307647854364080345466667734208628822643122816503666; 27863934085048569171004922161592504859371064436286460803927487558572019984137; 1391900221237433599080035393407864996472779062807699239516372149813996154510; 34156460900371412618891534461334214052832207279388516267763055160395173347880; 1175196813945742833890892871627938626996857061843929313538709133351260505499; (-274245167217457719942824231899836265648033125539498784310111365440001293527)]],
   [[39468567782001629845469931291703114351231301360810771182933666088696363117813; 48520602033621835552297087477366344329736087438136796734023135166735240273716; 18625302148070083949570190640721746342587371726817617065735136719429098302454; 41271846282503905587203195761691873616249329198810738599061711915113875889798; 11449988553240861046854298072644583969992683657222400242170703956023749260992; 2247556680150545674137140760452515581017506735330687440765038279049688307493; 7869579597704415425917215644764686101842570010504502198654391413099531523310; 62781886064724975133625534803131570992501278927737151532844122121523132588031; 44953297119257973080385143337217226413116377676351524259548922173201651784858; 3683489913701772423110671326135617923881472476628166580329157646623800460990; 50720731023828874809069599936266791554040304263225065196164359240551215778486; 28802905305769527160270115306271011498976601694474899097966040044153130413496; 34577053122581034383435789815028233279710515612790350541660454455144064041783; (-42507228621080504750489200147577704350414105764310450629177659182061132386594)];
    [14634154268926673608900308779686697918188551795673908169701089186353020356853; 22635139240448021868201029866848773426210620100937671088354264929878430660010; 32384743728415568275332939694451248442614540101600321302590461198767578085647; 26906291319604877504081767889558776026485663720856202979490095116112477453778; 26905925928956907637801043875296054442946136080023003284577326745408324153450; 40663379289755592383519888278669412724541796482712428648139760717295027780094; 21138793927129080881991374052201351766098258259277287099230450312565211656380; 133724057590414164611217814290820010124811800592932838157659575488351742974089; 57025924362929671832981511044929815101783901024594726365040627564599465416563; 15050104402195978668486439911320406443950300915488535591260153256949638481263; 52417226819199437074253596685188759926966588311242964001715657550597310887751; 36538194184999774528135006439822988643167063965054180245810186262376928036986; 13249295157795261949242883469212415290618797336397159244029718045224786893977; (-20493131015522998033664518808036945259529980002705182359313682643515705555753)];
    [40334547811194980222132355507048888492367411465942395326465999366654848330295; 30141215867806221944935945054462736214036523470954538064480540475644488758752; 3990820892682970847098976671783804238861473716671764856913850117313769007848; 3699017308994683179678097192349410906677604883665543712563393670588643684789; 33386121729217524311240183128482602803096459632223660219503956721218500145697; 8849473773366471152287258649832210330496423850469804496674007200038091323247; 11304667025253530799118253505202848748633086561741534317499620044549186562170; 23991280368750564890150033361752275063949061555951664837978102938035394078851; 37052737523837979767495884535966470787303798364167910403188932059226645486753; 2301332206720037822623673362016856750573341633634558194341315426324025129347; 29395300836534553464141206456698798564234985915551895362590106603904731137848; 23740783404326514496861421259852927113772685889884679824113500885021395861783; 20478880290097845389926524562164543372213478766911273585794317526205474489670; (-15303465268637008796079238835835567011161717276072857689347642282916125356461)];
    [1858744241653336215343795677286102722518125133862047495966642301222759149346; 51688159461706094879304629140765766764511202268320054417312410136779795003785; 49098832940808785947895306146109539579535613838535363846791726578611936359357; 28099946340881501693822716426577125444981671379908206999843535327518793525732; 43066765440543263987627031240917945671072883437138028687232808106544864608963; 15691795527201084939537085745224004438088538689597398290118630906434194341009; 56653638441650173623927826970448191058445625953569356833479005834688933219521; 85788818542843407015311181602031793935176348380538509914083548462963207405712; 42963954689856244262768027024018203499060274622665435968224607917228301872024; 36522839091926226607740556529864417787734087934414267709135454774901912761083; 51863977118392575751517217599152360018172261931422946860169873531889493069554; 27528274849569670421515308686546274668101554322570677600175474743868724807534; 1665085576277610862864099343158295165620750529608841283499508520888069504121; (-46302878500094080498116209281940056069927910708794859104964839705237756907325)];
    [44388040078108422381599858079345000847427885062711346041771517276226329616898; 1423604317745427322790381226394774763053130405907994130724317794966956167955; 7631806883515040223264401812127939053363626114205680986194610665971438943838; 59674718344507065186380440304145593103656906663414527380552413208557505022; 27130207230233330499296426853869184172670062874871813183704858471147825892512; 46145912836293523741941155474594589446671460220669281023136246614206183684437; 45752182917069275984684062432623235897235813255490361061992674111601124533466; 49524469505690818219965498281648267403225033776323067817209536988399522402555; 25214611990913776948761567319809939343023385646268472438215386058531019184768; 3576280619076309958385700438152862614377940694958125256614378117422377378112; 19498400346718290276032025041741245119306436760666132197510247805176386948673; 16155746697940948843889895126130421165201354758559160068721585489724208904283; 14949134811365200059522201220602659343532015688790880316156648659877613550664; (-479445653076126574394382554316084473156183978892655693253362391580936838390)]]).
Definition wit8 : list (list Z) * list (list Z) * list (list Z) :=
  ([[44572319132873595455842987266297020623526171197071652062676750099116673206361; 1091456349525606900583395159521271268425387019095147958389444091434884986721; 12545283780071042056037736557025587873621473595519879450580298771999994717328];
    [19849296478328768495495805247695997168837367132856874395156421056346847466394; 609071131037723960912031820859292718978988567260270509769117086528715971560; 5586764655728719184979849381931696012441165157871145651108251135514781817756];
    [8987285660766590138219011762984157073474138416691091583362974629489246270471; 5641671924199373615368144978889848215203930172027776142550229932886792667178; 2529553122214021277046766054704103651176568605371835518392005188074151770305];
    [43678687874783753989238000938645889054046194408155765536265092054211996908656; 32730726024905081509932482758994435111438943482951974827653153716823728964123; 12293763151448184962170746997049215267755641521155343604818616641497506469677];
    [23089229879023823317650486648615261113639661965809164793311284521221055636439; 15433375562387084615923911338642423753192670015573424645956791377927111016695; 6498673318571267286584775243660357056001484263123379080286617684025889149097];
    [26006868771002328881253046589605913386852383210104504704200133552093254321232; 10854493260013259559817014824476272731375844861526100650496957130940942278894; 7319869266633272649792294703651512320774686524146587042317733576824103701742];
    [53574871283165553125314121006188091071578967551114640432034301183164885326658; 11302482905752368751436568165490095424460210189201137155017025296008798719060; 15079133794328088383141196059177625554017968576433594816584605474958479222838];
    [46361589381050185680625026890177279253421462440776560773133113149222398787011; 9815927216680090671924870882387789300223560273047087727063558911712233773106; 13048890131710441359519696717466101875249984053243737339233395744760013677298]],
   [[1010247752756362260881243234901448331704228065985397871388404881884689704343; 34905110436806704375115117043721051740842418404017689336019589974414716422638; 49766012895383348414263039472969506633583113625067288290119866918064515786608; 34031653024890644303041648736839707433327833359549479422391010369898921724004; 22945427066134581807489790825342923926658940703234701284971710820832629599149; 35004969110623793200544284694653342333166775169462716938376599384261850924; 46063988989948925709867819822218563954024412056804729660987493929217362158581; 36249570693052481897408983340576903312511774172909238056108275152152953548372; 27349015781268983902024049370336231459164108529134213155880939619859503158950; 19723323532456516234057695425615619115197662516425581317547448318541115849458; 31075458789409331105012243856717371219710819410987695014580635906724678632489; 17523322252961580392897644113101120472433860572293472182587564710487297755789; 542246238316536724620800332657344952915317329780667297758945172457740846054; (-18735171427742157343294630293586820942968713117599296191610504745983837908449)];
    [8668195667617162713602608175515147103660941879429511114053709036044027311207; 37681485510013466138918998841666858165213744209089186872109760116369856650799; 31186435793523437340104201833307395547081293006617158625022331668186113357845; 774541992178113257514362801420861689372593501932095621581484914824238450781; 13425473076830606271436400085328113130609449990361538951077330333123850170216; 858280842094092128214627254721409171698239860920666596916004444486588143626; 19665594821676048211884421826525674893978252082524871711410628967108605453556; 28418895082855763963714354233388679289940241741451275910654270053722408739113; 7890557706590499026880752582780071123420498661881969969796164497750303910184; 7231800667317497694055351870726731837243766731195157702100636657364585322464; 2529900561266434004464944617856973598659429030347251157207196206695791192237; 5055713395831722516072600953352789147553506922122934665358111579423379919767; 378776706234689455274209534852720059072509394178647159081342607847643880279; (-1646579001537076269976712522484408192527579259746122130860389444522786019125)];
    [49444157831517844751255683186086055092391671187830014667142777982061391761769; 38325651754372413483217343763106935496036760575967773049932675282070249514007; 29380186825988252547682292106232317463429897399722166584374295387948871758196; 6645777258764217033329280862512781131276955559160826088315244596689444391810; 16191462194564564009091330409296830372435716682358285582535111111312714347909; 926549055716135799192023685900064755148902811275498044576301354958813448664; 36207472951532117282788383086453208149592080297104578813672034101874599737417; 36675305298602789686139516547360196099751194375727665368071277612355313129849; 40621342661242860549477357009875413613016425540073048623677274458419565776989; 8216592124653135028788976644870760388393736971514240049364096263046205511075; 27545533186741087981551110212781507231345590414340778181615522239501236858576; 26027294126191271136837796637555585522682552668587727922827757388309776356131; 23524330537765611067250581782117747345863495980274566026867359248647667911149; (-18234415135905978916945937944944095702609506020921842325116575250060383465370)];
    [24424117292259436307685934938063848544019468200375892548716527440009604940493; 36583979248234726752743779762394860626104356418177578515410668973021968894858; 30454344255711593653204781879090188308045518943916605838711510702837371187567; 37908103634880083259627865022194957151692627627577805397411325383782117402255; 45496709774694696993931968750279200975437839063859136896506733598556592690332; 942388442549130615363946559529536265420768112340056093296340962898019944797; 6306700722601298124964475963263784726984714823672465908340414566243743424624; 69449982842952355673293573653276609522351079655776518528452145343268576578896; 4876523933271111558289744659538415104351352984354395218071561921208368213624; 23932074653925908651016825281798908042285471674931320081285400259173335692380; 26181028091166879962504480872107007901179064395577819868270040584768242901289; 3124532928000834263693037043498735468082370768294732129146751019740916477019; 11044770072678240533707432441602300013782047862708380218968117323376893935505; (-16543551372005616742282260919641306115497187354067501194210070525936807252647)];
    [49025407799462363586681626888639698365893077756861158880615624267162821984787; 12818500738744348816718749150692681836882431285482295854460275860287501158274; 21905812431766960079014468397534300242497109522038849468552881105995454385799; 18725609052951582387406946308450115930922834259022871079123165751547855918335; 52399241007474487197364982529696256876513916658223794176770167861879853905913; 899562503123260760052333020666874748968097619901034416129969490397150546873; 22014682109385404173182410851249114435205679648828479858700955800340325134406; 48274130683537863200573661806940911201891033462614727791907154272284537938353; 37453869227420389589957931478794442932970025880965976421993317561256806984980; 19826016658602131095067822853704036420621235619319650465016734538207300998343; 33527695493756799661520387540894215673012869639217850720899910816397905848596; 23997800335537919143270679963419696536745502996323563624812922841942485069896; 28390694994523121293911903884174570570501226875722022362365621386046047718605; (-7423215044929235799260729348283145307231253390662097884112565126534372975358)];
    [47365806204061385358548986132911778319470339734863904634944103996966447908817; 13815220452364022765430582649306621386616680709785487953250526715757190547494; 2782022587054195973119421389663732382500910578720562782330317279473894149024; 37587054186199823804655242348955851270635248077090192118695229494846285458398; 36345662417076894422028580851908859849516018354571566509422054774214292529800; 315193777379715652046562753381071694180227011107496745259586806796417788630; 55818660118279702395325860664053361889103716604462230962131501334045424355675; 48935487124607342904830391801456621174148163506596691158937885432566392763542; 33898832458066275370689359734102855298733296994861066726041735485662789911790; 1746482932500170730742932888404176572996505168740118862538708928150743192090; 39156503139208941560779605051553175125379898361411270634433086138841224414958; 21719983267869055418293434797494682859736936919389101775587127790712629556108; 32034646780045945073628417765877023399268986094071796425496632294578936945948; (-9343569609546732253921349538015024342182461727880383626457215850723020737518)];
    [48577842308630573365019333121847151099247213871386595032531930153824808034985; 11698818496297094926714371527533498792080572905846263409223249541482347665093; 56994822508989283076641951710499048363306849969621274336535359782951203246352; 36314662218569432585001895939910563448624141624288049791206706150365767007386; 35509138333828435899168736575532430836344529429758176389851623162527197561918; 339702092191841437660225714600958268347961714207085121032247674271015579748; 30460399748688992906568673328950989916557108745664634926450464433261061078557; 48410965816724542004602200227290512730027772819285813062629214809350418072574; 31057765388105976719624995019450106359331962655690343797566657229027321696041; 34956395555413802860920090426602776219665305341586782470963717723683020415155; 12167279165846618184676575153211956213878703105610151062179388406866219578775; 19899627676013030881087292150158902579535146621277437827653648219624421472020; 10208990485217064684332045663436448912475961024543668414874235063657963528077; (-2458592663671259557475493495569816249226380894816556921855986205926228098348)]],
   [[51416308261230323791972553180748498853602467457543596950952167188234310296102; 26500516396956780220658887122604521806411632574870530108424521362596479422245; 48753635833920829168485551778251209959932732207918567850419475209509198659580; 40759377931695287137496468302099116094738218296858357444369558499719270604105; 54042309679372350102968492827550906001541835481189147834254848133886901655845; 2363932719597161108950529682732482699999584420678888520767513240837204307396; 21830990419419257497347620873124812688412515572199991171754173629971203429600; 62755165084652629590296739749607177395184923263631421419264189563980942457716; 34824749805561979687649433858891884449933918175660051032110662627281346116952; 45508447132897801289474783151544099254499387034677888068706694513921086049252; 5288673845451520934482941049299696041609103273270579983835372924377702996264; 22313245862382129161398514099830000594205436123350642564136132568751478116704; 4696764459850666383729519882976513985091520542560799259922816581194022685395; (-2420762746102652947424545445190784978161945033883979602124263596835452557140)];
    [15426476579153824640063748107939638128818377676814173710932605230473017653035; 54874201845107823946446372651255629171375058352614330916365376676602781150596; 8479949907815206322747222586558612540473416559966801777647231810697524924342; 45661785232939722996657120074727358527508399618564407596388292769004867288038; 46533835114435830991140841182957619482787105925399188529935847788396443961025; 12129971467499059094358694645148498072151477076260944237913342506412934571000; 42788989518007231635864933483869022119350182738811562408398867415523041191; 104860903794076615191049506468642553551569263596559007281883478209052765134682; 22698460747348350780943182155057759678314214201387440909799767114769325885968; 6815743517334849632419537471230839883397566650687699570096721162343865899518; 38053885206620624668393618596399006942313689365432386752288615977698919036682; 14543574273499093297457184134413292585627739615580013776432535346208824153342; 10139507331672833291214893971872516606353250690708100486877021914902029479469; (-36067689797684526586647787591420306252354532225162765540940320701798957722407)];
    [12712558393922043510311116546282894497829799292545297912541506421626765270056; 39685799954857566999031473139583267673043941812564928655249869908845569230293; 50744142553879194239298960358878566687034820256005935941595726656589602146914; 4110404799060990658411657980785077013719233911913984629742891688483045478739; 34490743450305302374985133008062185278080079732693765141113652779820704452662; 52010082000787074805769994216077243141377343483983435351097047446386661510146; 3259204219659361281661047261827214432961847320319011613759837685033155695812; 85363092063783824661322950444425162895537609135058089808899201720934226151601; 16152649438016402505640139679065507272177214828707850843079517497933883328214; 30230099723730198376216605250654407551562441106581563702257842843033757620846; 41642645515084205847471665153527572517680251809508111219246718127187667125696; 10349479615838185337951252516574487690912619647000152158140020930674435543626; 9143708629402631957035192705165027170061168062318464261548259064853081297004; (-28544639109423543860240525552484425246034912876758850824503751890283414209839)];
    [35966709613487039836771455641568151899303686490727459701589928757130906345287; 4590715909301946484670322652103488894781039724476604802293138388114824244525; 206788088039937471700845053581293731980571941670231244528004409893661984872; 2791367562038878864261028344777132565666939428846680631432047471633827514936; 7913248016317091004117510025372140587854409498299002538084903284287147536839; 27203287002259413070306107678789608696099477407931694744535490660581003146490; 27420214922931444128997942695584921657755660579064689711941457788763884313244; 47422720770156104116603424580610041424788988332512186560613119516647457361793; 26322065515981208626943351194141508468113223577551879823670673808893043854389; 28263855298893586165614661297540162607881457999131736064144858586150913231; 7706459928277153532416664971790846855873837556628771293556898874393485551966; 16865324883684144448846587726557142444329281343909200529763840158896135598021; 4787477421194906982481145789460713155641964038936905834672051396894453451804; (-611063647441963261942846658458460803923805133021271771117291509928995543464)];
    [14209203893922473311723595664823042609383238336090280855951284872268697714335; 54096248485646036580969450637608332943982160324686939405543494070853926149657; 42135652732901624480024679749676997267269181738783638119958972420464085996604; 22343567836826154762877720528691849287375626504681012097028800824580804834985; 57858984589633460253607382477869424864789957424786155042986665155121279065867; 364008848941751103170643268179245579380868810015491650205238685747732373142; 37861618890767994471662438353520581358551023641770514285009580795575260949811; 28411349615867778006505916446693943282941536590358807959834876845174216013617; 13065384569584038664684877453659973111195504635990459028253525618711726515534; 42108681140566797858135463227202964337383596121207804573205866915331768241566; 15723331856731835773582702728192427597520775686002516923027692734657193069262; 8371377822250453981436963670212411058826998207376228638629556240910958201292; 3858916955651737623540876754569395930360667310804401979284772755893792952985; (-14691388207026604005407956921324395667329014753137558346772567835646570611452)]]).
Definition wit9 : list (list Z) * list (list Z) * list (list Z) :=
  ([[4975509444067247565308788967192026903932001450383679535544650631823633154885; 13276634521266114592520201346195585226217929928313184626744819282443433857290; 1400402293184939306186068165243566561720180310579280341387002254008256158301];
    [17863636513371094960873524169772018094962086971645575055616983034505209094344; 42132499046302490611435968808603945404490092713411217831138616380168638261696; 5027882635772358554075526126195263982081121317845832625421629436601814641943];
    [47948549452286031650217447373749723845110606932701493431572164432520885650240; 25984014302927850637785185225207644049912871109309971573021892681962617845608; 13495554447783956633981936349240424961385823679609997378649394233616994133172];
    [41317564216361070356463726464854876757564603485380021172701403133098881785732; 11065545021137822639608892596367285778547693705193765284154315725617044938920; 11629203467074355146768561874825262601598164497504261215442168304126363222843];
    [10771845863539314073924378919352593782548871602866660796016071710736615657525; 24682594859263012336457148972079015843496961337647225593045972315700055246695; 3031833788823831400288218826248173043328485847883270036812045761860048547467];
    [57583174853699164468247015411111948341358479535590722202375415625380714902500; 33655634459825405026143711792580004793254443823399256293745229633327089210660; 16207307215574393734080604242254348453976293896542737421285681559971867252321];
    [53795285216341330528093463669815884608873994022526855437336538447415169983805; 4722928058816378093120172847317365042161835044451791425112664598949008188127; 15141171296404850349350127150635141720335024175261861469894238510292810488757];
    [53092499256046470663145105538237891968373502621583067653845152344714486068263; 10295782508849317771022889898406588350038346162527247647625339899286438512265; 14943365809051463361898484326364131084814017258506818410552441905646629797325]],
   [[50225331128728478106780859889537807505048902429356838599409066831481056211564; 48567226733225781276449566422287543329128010889111409895804967816670485558982; 26083094743944653033976969024732106412821112563578965996396137224966895092565; 3487310344409866663616505196520314502771039797245274316323476742094092733340; 9458446379670313507671914572264557481800518436031953755233518399760781890294; 50545838139651977522498028715114184744339279453662375526372557372628240677895; 45492560011749461672266461531380717702485633900378278822718956888374943292629; 80586417526594073371154936604025669699546179107534019096185672679609201125815; 3663189944230407490517548269268862788705607068267586813626912796480154985426; 4261181479260425089327977822426295519285563374785867135766808682414158765516; 41271396254383758185480438051876404995614398205273269778566173178750451617677; 2347114001466978580074100203268408583281653041990364851776880862768649268397; 35803301532508612629132295383688832631889554545036681235840539299104356467478; (-34621316062021503616125064059476147874021044869570949329451164280970818463359)];
    [26030160992208868185340226704082261302292967804008066484719132829234957719028; 57793405576878186415495485207823547976675071452793778494338480564258198542794; 49474571729848078766994785109119809395733273187220980254714081405301710381636; 12326610139751813137697373330529642765562295800195950833392369380114104186896; 49479847130823404210147421040803263392995086003622065328374506203353518841401; 45379693602982234079418405297280162459014534571244369621246452280928021243377; 13372281693229782782995869479794821452661846177485548741201328288064729396016; 116554946040662503127681098623477450630409970152813321736077584771573478837184; 48198533738647799180155121064879381137673139716527618608391749417725810914256; 42282581861679159033446641592961243638246567940383695902567235487723557341220; 23123835419360307709539532919570972238826378012195446148693711905095911350180; 30882224266403836610795065693066856447876231704846962245961721646629424735100; 10396516077875746006195492739699915878270953291199580425386021473482772455861; (-23082841110934708640865846227625584382488330928088186568147472265248455432487)];
    [14277504181738407774235093378032955288190316525985673811547794837958257411428; 44871378086723879356737413210653521226866440740474535279860816276104559603579; 36924739288585380458501225565328706023864930343668087445310938679451761543491; 6388482449295442741427976367242649743943025965993485126248419518701657994061; 41039297316674894132175865004894193771019165678738279377248673643062155094901; 54000345783742540314178739723752739000750219854816662425535479000708352753593; 55366682519977243673048140666789517657243307759316699704528876216269387355257; 98894607952633460041744249794995056543977641876407661979696620533298608417683; 33883710813655061354970147841413029186412730442025668261954173855719509621279; 26173901239474429255580972425608604125830462158358840066581930286212759567488; 16857097837518709098330940797923620956374482174372798665124248355611020433921; 21710294383627967615658424498030285291098617539888801878590876850743957823276; 4157059198990323134837607933460440118648743756195823193728311670838696671299; (-13064816698521626996282837898459346194458872269754421749521491142200891045528)];
    [27652409565030648065768547406545117516544566866761272819218126627187357400840; 51678122657466451333620545630326085433338414845793810299706114545084352106162; 39047050174777077693527839958742775470679524327943041619728685580735660559475; 3504073021756523294335616931584040872736642006827278045698890716356085196845; 46639371890708470582372013876090656592328498833718827040064170219829222427317; 41926408528615103041367811796432624037386824721816362643151752385028608374214; 41012001037559111562008321002602705616277411903568692164363969121669062746504; 69783543724006437469413183911094130044855381675760409056021467923573046490560; 45330902242543152312710023675033060773876132297486960159883771106466799647291; 31455169456424104065899701310430204958124295073029597888006363342573899442916; 22166000718492188544141346077669631859798089125193649944175797469834793052609; 29044848062050625799626106682123208230956174224932158361939567147803160837904; 10586963830150445308824392530569240738001845640235182376162177671116207321712; (-19785415592735856619799748894454362193109202734372385780979703212611773527112)];
    [49945300859731238352375040412286346199708651712656809104373477970543641626120; 39013242103148759311269299813493822536582186757521061743729628217118423084807; 55959072008129613985089364336174482864781552554079664128394586909687282429156; 6786624686639595141746268000656728953894556811475360746666493966789180809956; 20989106667471510024596115058847774611187863114512384335863090664558272906295; 48286417197645086782690932753349004472387473681950835114784504787451106824311; 17911537072175036081317162804358513509157639558109228836678664892036470251570; 93593749394467606279917685511469274635946205277530135923863685985998472335286; 52727629783804579176272766530625971552453690013729533291746247773165221956819; 20286894193335562830238594985892175305049980698557903017449037775373216082349; 31374010553745128249561774676627980440670007844595769358871507401386720645680; 33784149884080071422470891743748850232369991657655267435093442253029563539885; 27065482739008962934465262458336756583468897916824659808619922618930371260949; (-21141372913160032289729754661958199375843443942289627369403791656406351495796)];
    [4761935105956298490968961254561111282712008121274176741512969844118675478342; 57421793354958567450448159224024314626289017282178307086364822156642197213384; 6441401106983616318283536088817746396207292965639561652762157204613326496806; 12257883386225555382060029639624133209011058743109873846435424208229700921306; 24811084551848745897838606358492310638632854324012710170940754299465282336795; 36452749975297350369602779155101667180124450763661652488154790207789903805796; 19618866418211078982354947946788154068599160856932127360837652883105801595776; 104952826399967554376262031247758804092079937202825109520514826490212730015592; 13571837864748853394079063278808031711689101761315990677829410409482563866331; 2760432919906901319889290713240500008282835866167248230886091457743615159011; 42625020428268857372500768526000033376319636165846672030820085103788686975940; 8695877408203580838816377442337876745226471880421712337795207276241622689985; 3505897207769949734068300749636122663378882866640097213170595692248993542203; (-42275860655153542668802322095586688192410400940113796906037891139096910750173)];
    [32418571708367977452352489589045334204504079160877254915429124079150328663559; 18387148233383658620287056230463085911877635595024572348568551271925735393572; 53352553537965857489912344638334992738419110734623649012198646652692761847794; 1168703445906122902277398339733145942270037314819646696546247198967082394024; 23504077001347085512768260078512045588435973489444587005793269727376984810126; 53653122977250709104215060878059928608780637553902506147368566513486480363938; 9481769932176318777160748292388074802944446423782431644076210757962227240314; 73364039480552113329859056529186146250458683844064505657150212665168585599022; 45145387471488751542036559413385465873470562631635431775295822898242891620581; 21659554376029278998662853659115827498262141032298618136369349384293539039187; 47012508953641457243527850055267939536978036489715410306983135884565340496420; 28925983268455489836597405923351338847059965067883715122081648727109665940215; 26324395781136903849148566483900738796254528334152216533000018805253709569805; (-14930656777117798143047391741890831349352351553584412225506672148867884422812)]],
   [[15779270961168218795229828090701533240215204226023372799860239005869904877004; 44830166261951740603279398495576682241725607809926503424472229723689170610363; 42037538240227627842581845284402416782997421077760375738778254382313978325024; 18152600899300530848595718634067145158573390810867722020527725911343815843893; 45865278220455872773765009860318295068788057912576979901753124117525643367931; 5839556439188399815096463440939493876063774242455111655591483669478643293897; 20399681116802148807280588708164634008627507235042644889035307177398899369634; 44583722356187566205737961871819815734713857378377328971369889379395336162323; 30971717704215660870158471048015351655627228316788044562760418602334912995585; 33302160791649973031599174735139207233142141463222901751475790293024120925691; 3827739980228244931183164575915878285790636834816604162974869735211665042906; 19844494383247019242296151846432337204431974285627965198905104401763994399181; 1043230961886012019199526012598681228966637961944882721072185331896865586001; (-2963902298532002130193107586456726288406976844237644894588387084495123731030)];
    [11934888751358376585367388605542262864084187912753477682625882954803615290685; 14214449243666306908341928066213895894989764915988732118960193112150360243653; 23684320436510545172126595515496052606412882416460698570874777219441308407019; 4300559627275925196473320917727954219265583624513252350786961910001497683353; 9060007008950451941963587910170262066009734516899439547591878194077752662096; 34712972540900627701118893494123050174946738521380830746779969989706504486477; 15281592692825668389603837593715471667828903252525648481194349010016363342056; 63449997399640372732829083790713206350996975850801441481874226245486558013517; 52693111337899605159956767337891584285255103308110877258233845595236128732939; 3706299982501075029495934554303377406018107902183556468437131695172346987865; 43271731191098004481622484899018163386231844433259022996445892978593009075025; 33762032896174475368997335309990781754615599907811413514585993074290536512880; 8920182738666836994049794695114685423644195425795101168633611278436960956081; (-10623935205812183418440837509948354751924597599320660489806305910954275015063)];
    [24745401508182352002952447462187517145313719592095512250459315231990663674346; 12605203304109359736839575646170095420028150170075032505021828813425976392506; 36508730986984216990207894030868291205398633225300218569839450778846510216434; 2460298807034500139478190271675386152189317891461707823178364239975475114259; 25105690069755438709619503705027136633667338540014567677511048448904334127159; 3489885511723732153310715720352889006966576268852064184017149455703070830250; 37895486636384245891258562057510825634675343537801070240983516858255753299875; 11810614733388503889832040375517838135005296713939273176772543618399386992581; 40952411645713638053648124275128690051802787844316543243850790828524486459848; 15831424945114783537988127659156881115256929506511815247808612694768871281742; 46493003701429319431197102178502799354903697647534631127400389674014388730673; 26239419803738157369126457086348339166145729508685221249768944479457090246883; 19871617335711914544425825365532113817710191074865982688319452207224673918178; (-10122518174347934924037255805927170353916311444607340100604575909928699706125)];
    [7139742008745815782467698207918707217570867389629573492211592981809669859250; 10391024330052931068916219853641704524060189883573610974407450960946334497572; 25557460403430350883108379526969847634296080207038563008463989972849692842550; 10576454744609908896134105218854447831943031762596828471687173952991960788134; 15030971162385982691295537241036019987567503582478883738379594755061991314466; 2744421512462421916581699323826956186514825751697398853902748763129338057930; 6672596713600293628154160664146198754644196751225397293279351415188497480267; 24096079257794439620581860158461068705117766756249394241449830291233954214713; 38971371446851534057839798495932149101479354541552708632748749193308364412349; 6635227895758227616981568449053179898302653336568633603766754803251395809099; 47369555377613729519972650218410126279906415708260602749644396786168863291864; 24970108831878350052429614615014800217035351563187261860058921501194693240219; 5841615030747136487836778130572621552285998378459824560714022806599723669451; (-8501758724186613552981814443725636025629858439278169376566896336773804398948)];
    [43672721813094808158322153823698981319419680095264823938511427045013292716276; 26774469600843634339468622105851699981555180542412972644232493480876266571002; 16879574432720943023237383320540916768971744813932027665843072400977814823694; 880473204814095046506060704313755294274684939384325751909254402149669516494; 17229602522764960458592643684602762270738820113877912803343145203104187168563; 1864952732763293032182143188043892041451817952216044518945823946822865706929; 38290117373006445630690667942727726808842805881671182488374361743712053185510; 5308268819568323684038984210033826274826474050692046921250826820011926089526; 5468363292228965893494991241496445402071039886657440735759175459572347843199; 5023285444537652155531168393696444100830992517801321809843872333736530895127; 350028090044017435355260364061845501767075299945885137500072802126372344868; 3503741887180551972016849754498836168842962819229536539017527681940413723773; 264036679948509845589613233174236311029250169421911021089512042753249062459; (-161873173168459555170289471560995880149185098972266222950066869048709738059)]]).
Definition wit10 : list (list Z) * list (list Z) * list (list Z) :=
  ([[29692651458458722651386678943218269027918203595633553304967606314881341146280; 20196784949173782481969633414144939839408872005335958958236727007502051511328; 8357266257980540976723862325806440620978999588454255086674261590311152221763];
    [21782269476313215386108743319959492452395071861148320412476336753633142945529; 2239830015248168626809444624844275921560010962394349621768213038297717503365; 6130817450617836927998847716278112698205060089204568936307922310188658680540];
    [23748369273256038991987040832099624275155268440944903996112088194870942655638; 12693698174294182515149439702091522321027723064222676133790303226244527370832; 6684194083748786014511895075488793366087625240344198810208787567152372563407];
    [19658369665235245082149304414353253972531841028835533060650594893938220700934; 3913770040891392612093299906051090174122288796388115464833185591130336156438; 5533026571238601849268659940863617025589567867698814739770510837440373067929];
    [10261837381412579092179354721715303227927960257384200732452150161606997876691; 20828271588355374381949472708470040756750267026769250176771735320466865460671; 2888287272443347841077949658001568587256629387453064700755276166998750968137];
    [7189536056891143517768014257910693538933229609483873152546800721146089122412; 22310614505956342129337866616115466966746544951068076703544597939061447642949; 2023560178950407826528758077424208813861140456225780022650638994418544835104];
    [9017751177950633037538977382336813248714740586233748311925942639418298370557; 19428621547081338925004704431248124787125764686289428624258518671691431671519; 2538127918545374038248029371235528684176249540833005746828135878094457033200];
    [47700193514050909956560050415656228829951284728850258366301701015505362367010; 3389979074026916564262611930356251736356538992461452198888273708015326103935; 13425652414767966075587611711026350007831701496348595725146182578328913820588]],
   [[3989370560455708984633793475698444523747174347184717690382157232120584787329; 32505703979076959151485506556792486289027941138272760644562679672175933443866; 16040327194485211998333674531280272729577525648756877913946171827563611567771; 32943643095599338331260398482087396735627719795475687461009392421930327042345; 275021932259173671421576105313823881048414800625197072982676455770671759267; 12382058690335370907784071112628167119069519167798526356775895083454883904613; 17804607425003733260743116018686680739827355307828899577135268909140400799649; 85719271684282274202983736423005443533514982973946131734258741520389313969615; 3233545349949715824947326034535289022703409175719943732438309213663450295551; 76195909550529510842908963504116998068018718804565038105424253215233991994; 42130739356432059384873394078377505078105881484688601178765296632163625011444; 2071828018964460877597429035410044348995152814206501517780056833882385118189; 2903050327286388820687000553277716631838179809713021658745697788996695066906; (-23654281582795449568043305168011483936183598634203187745828045612350926788124)];
    [34075187035283134114836009330449308303610313265125377516809623267476194043966; 21567450682332207607186056702833894684140379027303949368985042891530277624141; 19308149049026513083047524551580707987866993993081830324551822112193254830894; 3009301789849465036339209395737579363207820877256342921094023437945180034590; 21026698216960382138795157175571474464034175655641989977652796785645370963799; 15032511957843488499803559898484240514966846789168099080672701906910193069217; 16411270137523601407444931031691951656154249430066374633168251123563030707428; 44406755568304637726545820337901493821766035714600760556213836743049621514318; 35174616482894689997482451055555308787512417192183623034668945129104056909761; 7012337817826231888505304144044258807168761112796746795627142271930462043205; 11281554760616066366687129502592687015723726339359883087000691320942700151410; 22537415776996494984249868262586212224701481779763239801321795880026521430805; 6639850633127609625812021731486459576797639553410677179230622959547201418759; (-4202607924638853071328651031732533839781421216839310827809021764106772113738)];
    [5059886806144239654386250234132239322534981646959530787642810205204823263599; 44781990901350621119000479168942884261150661419375333506507720470732519651804; 5807485123445283485036662762318343324715601541011064164347147422637890047475; 25703934939305138782146937483284860851055578735921331314411662218981272816409; 43419662209931762206170746876521375902313396280702775002125901900654538616281; 9974032880230673161219687945776613649550737788279075220733749939743756059549; 15493732686050236090996699992562099454580652092157353158621122343096067957813; 67705273752086808756715280874603398960596781540812506142374679987578118244217; 35391570994609154669002065908761738997922743618352650893170445901227879683649; 4355375984837745542098686768162663255611301761868875386275585114158938949474; 4294058718155495964900944960755476060997385080904589521162360611683425563248; 22676424941107266222461953610026805874961513313240189538384611232638694135903; 375283859129152966717900204624070957146975912160078852259994691773355810606; (-3321409946273489297361823739059072512110629735397790956092399999155496815856)];
    [49345374921905927761664789785766219513360581344901877176015389372358677415790; 24437438019619276828966675151826923400165154932389666147813117480889988474693; 13790232829582206182943096552405412170420181680558481301557287840131612042940; 3816824281278646723631455932013387002171855688029144986573079054263755284816; 20910069794145932021244262972657423818553481736111898954780282354794173857501; 20709774941465749543777856884870024528775792343858429258418667813038337092743; 52807506027065190140431450001590784812814720213424881335111327995606420140071; 60646980677475236821650927053685650222174348254299003279923375039614603202687; 13519055152298400651341891981878067122270858480997188845042406039779153822345; 4980560120184077278299453891070481004342558501669885770877005949838877996655; 27934692434704666469854012793678758420428633225374798602342067027854433295782; 8662057965227934038888080395897824556709555445943286180323843660767872176457; 23809016325692134402340678962171401033421437599382495606116876211372730173060; (-11791000913216533483492967147724701339028912799394719157938997549026414848026)];
    [35146574295675499465483816771658053945736855145317641068156504280625396750879; 36751699384410893173943820952358790705087283855480951256817808017229242083347; 53517179310974054977311870167326936139788367540974636149426105010416444156001; 37222695365837787125393636206734095347109338862036819364811162354713352407411; 9930324639992152398427763581059808855732638003137642455559005573822052244451; 11301280522502851544645644670435102819623304125131644558673646451579822076315; 23763613307993774312106733567374581162822764520648257281606436085136320497422; 89778014725989651115189376135174516620488405129441926150676702851561180444748; 6430017645971422237077908184389759909426699889232635472955662423427377810347; 9179262035516953623817229343281193961912263429563794283475759907941111175096; 11750285928350726880185763005890557924043614814754411912502982178791680811815; 4119902237204331699007186334013641721921969900096412295088674438366357381730; 7133169460822161384421092006399424182186574501071075939445619399273213910406; (-7458937462205316276518114587249916176887800482813940578707347105156111708590)];
    [49801426059315568425576011618943032879828983416441546780393496425243330630662; 22586508639915485928751563958265688671554685878213793609795289205355659035624; 13407829681439420297142582666988859378756550043968521491398755304835054799067; 26512114463232934860202335607073214956306965246551910085123642234526734761813; 53776065535994161433146797036675163004181037457075350839469523186288333018985; 16996105078137551724240919087104641379926918324967884232285538979011253673241; 26170990269462030445674217212259477785124472241002105502791727708011581297244; 87484930648275686174273001710734003725632273224708938916812922291305304659616; 41701149178110960879558828996076023872911596177281956326884342694533728040686; 12453706162375236248031603758050072217876434970781361944823652945864386791641; 45294108282097946310935279107281860475021069233868652386109145406809440041209; 26719158057137079836322460789284651759841068827774521275148923567408945551029; 38961404002486693092182312319055689772160063521020703778726511836769432959572; (-17670218661555683646958272450573316637271438471497679285593288342406458590356)];
    [5034499113101539419171195675489016129397586213000300161297322761474792468007; 38984291250628169793609367006953049629309747617110716218706415095166866209475; 52734446355042513448665564546255355782489057839219299088252876333967424647246; 37566708408314579789517453406957764946523241617140331906756107099566175930834; 27116822612777459316893106772791370844732548516140781739995121692097369368819; 10445304043684527895875461938051358634155466983708087092529603094825320337521; 42447301866611832549988277787597379528456559861805725125307912885702222509559; 88080744123459298528312664886459477856214049419690754749119509676543411020001; 36546976548412864339256378667907128585565794988950145433325882318442180141003; 24699280180737512982416222991090851852755695688994515425524592883512628319579; 26771798951560945537720169213170401378109876773024346174621827959867149611659; 23416727408080522410260311007649632673777238902927757855562927655500798521294; 2328010470586276568478126211396853000331864337179686521925529972129375353174; (-18026786018030811096825033505673607783095000570605201959835660936625226992635)]],
   [[28701589195663402661877848408121388944364705228705833837290335451947214372354; 7204387230095814289155112784314167486479491389461677700039482462117900149790; 10138823816228670735999588802943978883559805220610629936915263364430938824181; 437787788211906615655570074398496629954569327560059577496644732122117735532; 8261898635779067567591989394772910976705568884983865985829889180867412802145; 26250065515253312893037729195207869647994045549495762498242827983181069400520; 55905064861451460504926186524685393593532951230474730635619762572352511540397; 33467811451519052637218523130318869750661692861978726473516020131333839343923; 31381486355571617091304837840372128215300623126041910069945980333265564369076; 1446833461723373315020157616930328587454882993126985949135148433562537531781; 56019119438208494543377893096172886019780755997193518068643417820393038797912; 20107045262017206206768272433105462947937468773450241641071777627929882386132; 27771115692074522824081944142143366503378263511343848937458838462823946850919; (-6970829032969535107837175486992835622631153048129386410552348485369559375784)];
    [4043104448796842162745666493312998641829351915822871392692138036596732345587; 25583947464430871653586840964872231498494354583644780039898113211018348195426; 56998755938091370291070698006047480445084369417523521863751252675336526908860; 14228626977587050168143072398577691591300739482829528508236494391047216970344; 9481476595885049397239438747609451363187855361248502007200757189518291347515; 896489487374079626321767069280763506322384038220882554585826767783332345165; 40241892446307839173903159368279743337457869489098719272356632082279594962790; 22268173095052764330736834614270984387198099604723795440471801500729761468354; 48322356634192455357740543761656736714486179683602972611370845938077935305283; 9334530087179957998589520220612261421972839164952071684209119496070801095733; 10378765276451776817954233245905924844738478276545262163178296518138329258603; 30961561253090204801774235110383763011669407535673645306983169456568519115638; 724789272542414360585545297535864834377251516574135972199561783503471715017; (-4586319969306324668542524448840233000543341700473884262691826197490712648023)];
    [16967413801548701797242886843680090165318588349974756792262810250234279035069; 44697289841450513164033704384247986028022748316827147885385602092788632953231; 25391271803617694851847061966072791099793153323433917476267283164908230709161; 282345602217751246085386707292888376072214492810453970095384247536537524992; 3632626949657580173525132976792651677110343432779993480533013156541500029588; 11305407341278395932928056979920993781463257661115949763530727904467569422512; 15148881797673966499395877306612883632822943299552772012611155360777712190392; 15161004708536072089869969816047905776295261228373900104719009414852993705573; 41214064628209665715705863542985703820627721815570005564127708273765724332880; 1593148873078233458238877962460244378502058391941976191880572136864082186612; 36137399764697983033463563515063814503952182442166358023994521995589834140375; 26407068598393014407211962195629432555825243322972398071372244492967690565725; 10590675400336718506399356675570171173311875808182979239632824462656727623249; (-27899035971077865007893426526990916231196154690804003267362137517751528277507)];
    [2579649274306548849837733000395332723289589758529702916422942026934274000925; 15903853772550703579537912563242422228297542773675645660330868481778530607407; 18885343258768609127666904365383633371174608951381730958559066587306746075087; 4972587212291292700992910804675197321060357270968510963805015193442374109026; 15433474686101271728566116691911443799038164259020486587144560526262599792423; 34507499300337193440778560763935732034678262118710706297781423749358851044962; 56648300243198058577190838050439407710156184400429779998598463520626195109268; 65678678058664502622845520767209616568614867921207559773398829819809937685868; 3268689143007117119795824752118481027590500208709878347223291082081731181285; 5034307076456273741988953653714664001719451969249613086305834432263046831284; 54444176045990760312684704830871764354498547640459037648314285942912418537284; 2094345685262273889777616742158007894611620697400905483518745223017781091159; 2425845844087186332689110086007653999594740444975880088562301315031009613983; (-14955636784959245195721278969029303820268675129321306664034493285657959589359)];
    [47877216812782924174466763867175181383956969618415943364604849026510454529253; 28112003636980376946454994616205437214785284325558286572284790568403397987982; 17648800607939531649123189867617809845885283142616312580244501113783314320721; 114940328346467665852249888662546055270660356195587318417956159785666670296; 19916030833505028602677996370045109918692982050774580560561502893253468291343; 4368736525692861121850377069167717171165409374811128964827382131582240707994; 23316373829617894864766007890959632284939710096840447377619665274549414559450; 5900919261988433070198181566457615011193015091574265995691156533396288510926; 19729108074049234835641914417428800687515344513478000114960714610527863389206; 6071123846150111334059379431551195252908844105477737030591270430668097118253; 2267230225565496953554806502427300072807698908158267980317001779470153970621; 12641022306252429615607198711313449588177951782323553819158700930939618221241; 1874889274195981343910646431707500753347123667130082790409487240913387191020; (-1100876316625416460241957356409117707704942596706681063010590770745202804296)]]).
Definition wit11 : list (list Z) * list (list Z) * list (list Z) :=
  ([[39953339698486268802200929093615089845653556727898565227043544080495690841023; 23247261570882891322320712190872301555647557086396285004466260934502136932227; 11245230094150903201079747964770397125528581498447869311351397461020288635771];
    [9205726195042407234123636793485231167026848696830507373100660342512761027099; 21361544243800665235930132151676376332046402697923366005412356322216926078856; 2591035193258857801894776012658493384213070264283069176963646481095844267190];
    [53339238954999528463949887567909179086803728789600452032752821993754350531161; 35183293993493318793837130148863683663418775320554739957173868044203778030286; 15012812936851740442847631629834809467299877440460587833984742133004487528059];
    [30459864909311829520625569308862054915393657933846545777330876678332923810594; 29353566712019592174309375648523129812770739402913298322108793072298028440774; 8573205447326897326322078439438069867693031925818561583342252897052854889368];
    [51007823890645418694472146731104084895336525285386712615692629454005008376432; 7732369077326196107819489991609465676651766528104166809929385953091000684432; 14356615005928210985595845944305954688704354313224586875641332854067262068633];
    [13066484124969664125743727416800878602310431292699035172433219709650781612026; 3531966405433254034653126539219026586157439435846111549571877053665172558090; 3677680554760254946509034583703987037114053303200448444469310865297464908209];
    [50297058287687978656944260940978088004704195676391089353919360616645466378304; 9158138799730385313441278437472685725620027371416672445177202654817649667144; 14156563575720309216448303319438903601935548770752194235329628531852837692193];
    [13371892329241515192460153153499438082522657928415455731861483465714883751134; 8589560605114494721065731173000152773636772569105557699905956554706605769787; 3763640465886496196559478281429772966136027305086539099517240969539069905920]],
   [[44624650523877827989751820302168351134993681066479444271153806569668535957209; 27714478525736819310693039843449131161995095049081766735341612278922679271227; 26293422006143639729872188968815578407002082972563552326558705486596175751904; 39592132844935490135407585280146645519346385330210948934560641333543805331645; 54191279734386349088122906510501931202043450585875545210332731361312384710977; 13650064588884085912013505117096547881294565790751345308681429570957104563503; 44599291900186330998825968657859781447082662348595663951520941000986812505029; 99736720575585358692062514778987796511936065293754864252174592773505183759604; 26582678649870963827279543545066525278355188181964505171392424336298499271704; 24610907299356460244868553610205828111897596163742286900384591969837526206696; 27897857728242709358250717541686352795041367613311992883774025874716208959072; 17032307416621660818598267527950791330973145288947142181348087708448946383752; 21502887799808212645120555662575910892123697924163215217530076586873559712841; (-13354531972194061982013743684516725077053019507029999849866369043088544631902)];
    [43394106677292198658640763566648866668194264840025293127326676403460605096775; 46941248820420750469614221571869555546358520316711509967413888274235364828153; 37241430909758484141152910974151079506179807741965148952919003628949888879869; 36902418505423027483675126600552118746589800899360505612642145502267210815392; 36663827788563861599252959177265471988102743755835419750322145256996912171424; 13457042294413411617244343914270588517787804922487316383678454992084604627010; 41025770153958873162562129873530075124942634989674378127289736400654941241486; 94945933883772317647461755544213333238542160358713399111871799938476851930726; 14030648700742277703617800090447285571231885059700279481538800931387320238164; 23583880703226035124177044371770419093228650237321829519929881453359960669308; 54547627932187167136468650393427544072782437075794614928326540821108264146811; 8989851063291011937480689806937173464282392778828393199278000646082706336741; 40884409307639442653973649751811746702796130911669121978775149147948297131743; (-44226402549499042966113081053670677290016765134837696074229396048242805175427)];
    [35329897255136253373431638007078284535646557446689786639069168126562061520510; 48102472413184753722918898271017592259334671993463580839736558443832467501512; 30786593174379041453162553140481907650302276344284979936575268920877270612011; 35884818513425826627364678384472724528505206082494847712816281493591354366136; 33447723867667955552584784624118375350916481195630386113786885465116122547453; 22792792949085140238828438980590002452423865085409178604648444722724043412357; 27788653408673561086933747086303487663934720159841342965109985914863587146448; 118566186836038657214909914910560896742272308252638915922123904034890263073968; 20715339562029088529241141707139121766445849014728217383188020902621150413863; 17786041759941015530284535649798010723095019417916841195361272066003029661880; 22664750510966266578945258136121989168636581425174832420519502940470485924159; 13272929952147498859969039844985700502221542254558695001943206561108541256494; 13830708334912405919076900311764103594243478447633169004476052100103519536184; (-18830829349162868980044421980553414433778243471652215606152006406042292731640)];
    [21151376809488097879774921986589111501461796438722076977004503690589855889075; 21165221968339758323072110317819190432914474753213444234005370525898000480832; 28948899487803213260598857690876360191970027072436885126016589496933227288152; 29216109010534818078520183959410496705811163105215209855539731809242736448022; 29331765366044847038454589045498562478074378438937957155172030392709540851583; 23356636681038615142395109395093195146021530623852356508284484658809098435349; 38263324117960232569520391610813923016522260879531846279975758049862131057583; 109505939017620169703608416473554396348081351530773649958984478067011633905263; 5315151622790607522345505179488735623487242904875943065910473584686312548724; 14666327086320745626545174329325547715547030217815118284369266582309242328708; 33120145329526698403619321272281197204007141869545826817841441006351088424595; 3405574644967713325041045618883208008227015112271334158294436969196172264525; 12099905588784649435186232738955702808900937950711047040693135824529215501748; (-12107825882412611702674397464777210601280841214303268644617790908278871082707)];
    [8181962060732452580383784291236328618656955708837443016356976112720051787507; 24992401954777505154913816552357157186653105246435342350109972049636955771348; 20184121316756630003761577614743246213039125379675399878432864288749182749416; 17491161271324200428329438631835784381954467344772874937994065693700258563891; 41593888465387353455231054891071538009711839129208518087677391744411487913456; 10276985256428299480909779344057337415646912414040469420429923694908648250832; 36151198439668481466643777059590800411241822786190220972205495006713507665142; 55541019674015096249976866792114478315370940245872975425895420782572964575647; 28351683462110875563752464534299942479244314429718436726026103198812452927946; 14500750376830858245425968276715259487444516970110818455551379918011887948750; 6824158349855234062032449561549673470974628229335900273095083747710553367515; 18165761053119633295845374819352588364616988570091075033101810488250002202735; 964401023985535195635801729466708934474778726171790761034068799962954551758; (-2945833512565546423596742851062592675906248621669010087067407610764627295456)];
    [27475117007495083772892576123881014218318747799049685248436746752982076207138; 19298189428216548021834147742252253067920836501695919566058512132099579322420; 41480956061903421632004867424770315339619086095649563218503116262645514797567; 6766085215593631771671107295623540587428717588140677703589705530082466550496; 53311504795051031363762863088380402043230350433572546489409418657670274942576; 12135310784653480331469788389917597695121770189613391776638177950897291760840; 5566543467868648233106314528998137280372810272978972419818371309727692410520; 43541732031256504385820224230405427339758868577420215657417925665525677077345; 496066048333346130107145940092925106490484167818406878050793287785896521179; 38196256800672630359763117361955531799246704963448733655382555811598686261737; 28897365774163821286471094436403070348438775706675238170553630331677888252381; 317844170087173060448297484588496183621272116304340638949662113896647899236; 13713518964604130616068945122053120325036977780292209510337684683455999682111; (-9632209632962667891358020035240206188239565929146689146983307089639984894907)];
    [57854637032597121065424460477283781507211162156907553379809587845807142677871; 8595708305423838218427337239184970131694134488607489845436010670114592093907; 46473131133004190238387839453708481575318445591917024491640776509822112387334; 22720587262717749649229319134647991068435663074376252606142749986536615458420; 55130134631103020765128599986875755093740407173842640462213730799792642175847; 9370428929411275886066628767828921513277167851092590584620258669391819681557; 11193040517570085082914835967712583953163094052059586738315743816366920334804; 61390499425623867489835408380007823659101207713961843878704449392763173883974; 29147286614973599805909006200178416005577945508772681711306840229732675803382; 44252936326944702243702938207624467488926270285604864627811019989879906297284; 50013300251444519012419418816579146518213334080388039667119633183401743044973; 18675527493878873085904332996358131439472233344865240928483920981283273406313; 49977530449759521736922536768322069436795108809137492642469601453782445015319; (-7425373238959651640157839585318916677030491767900562176836363562673968402965)]],
   [[13661732206155304631473207485375887840040863051006406460921523783662717752866; 18702667302471406267943646186561629076477578914690077859029294500205891615865; 32003675131047043337023062772284325022170149671927581673024915080788916870219; 57813259061481253201657542338330868537934220579005953570364146390111499053678; 7559787970830622453638301385384295512975556483185636413723105190686395258532; 1276187376160082681200335438207273547235086541007215699587500499065147682233; 8411203141702598463796177960323542773556029679123847530742195198948514811070; 76268567647870325324989340122538447632442852258224284669763559998589858275486; 50480058064813476047366210744986230563051409282925028578996715563240775287893; 4178886483034291958507568584271438614856569006529069851432127049872572147635; 33452157458441676828400731117443924417440399144078336760426982113854043208261; 32344064294400527059921695121277937990421914180218143136748877761514594361346; 7893707073178700017888488663906133310334850339969683450291208455542562714577; (-10806343950023423680795450682736070954254238838408405497370774283856871686399)];
    [34678801872141263131717568048919688293891458498596049038512335591958388269398; 14051700864432503195603174423174243178139259455397278969489826247036072519711; 29063347327054777371926607518561932849226926172051008066304291008910457247825; 3223759552177626073669099845762779699664524478314281655087724279372329717919; 2145181576643387393055617499552989808729851102013272686176730388196977293869; 6041686725421078025150156586775942525564932518251431726104335183461872503444; 10585746527682895780864839859285918297424110945158979991663275473622650099257; 18091984736664287889833995212744832415337764640994702832488009618061079064096; 40069851964948062463567447729382286759836669696078290773335342252028716837275; 1076863845401513235352728740820739884072552465356254738047160886890219759850; 30977878868246707732914502485335010886137917262782546639601231383243084865992; 25673937747008418205146880704091497742697775764451721575751291283159622417517; 18555252448885143500991124273553188068750797023680225568278210118071181685399; (-7518508218278983705145263396696040233459615744694592221321184418664251911955)];
    [56271287709999114249430521279143619599708294450613804315340758418615759138947; 26709183970593361440546052460951843372876673094798344582055628577437062451; 30453523544171789610488975275877498141388666535143582171648006176593304228144; 20772045952508153098281398755611096751239691172976714993778464897022792308740; 17655127701236865461697656521291106182182288778442564882841939147757011955792; 3410428095460273583296751629198455223354123298305291918911015109585019091221; 49369931731364697743682051671986666263765400618327242184565843480156947398748; 41015960807000337366452992469274975175104792384480509833095900703473750124017; 20256724086095005522735861682621055800772230230379141491432115301922554358535; 9286659402492325861268341593342045579635735897127933230200315731530271656637; 45097648775723173562994173749757561967428614576119264730922724975120272547596; 12979081470020680843661122231919553572478746795400571852157468383618864144621; 43832057716864913459382315580288217506184420849337118517689245743625395249303; (-20804899639099263578687549987219966247559904369749962130401527749291677269)];
    [4941794609987678981879188000114348043986995390085707309908914207158224370220; 11393072468401385903230649060352828887982933982104030268046685519118680025095; 44086632975065889558234399908090041100896360714690418075557177697725665288946; 54692126921586734981916052028447271309323288974139449945760277892073210320787; 31467578251031132297355511411504460186877990016400440072508954084669954544796; 12321748628490951707647511485508896509285629271509950033656294038810145; 11762688618897597868640438100728117882081278098347737362598251669319759187536; 54744058512971417268513932715219126587347106945273383438241901193903438946532; 18848699561560563301254056057205835600530454724095662480081656928696268388245; 23961905897113595703788257885820794690025606224595187211217311543807713579279; 45276989894623340450906604007758373012616621634530304016680568390900854075798; 12076918566579436425535975045941190753697430654553263595702707131626893316173; 3864678253781929149679112692945836624532879910468515886415011493445968912314; (-8909831930975824072826207473946330161671120747303052483480099526846272005893)];
    [37070215148198071430799085968753265750032279687669442199535644547659159008720; 24277510719184982406390712670096807578634110983235809048632298767886642985665; 41536763957484967831336870316320921425188078781908781503822580640858797613095; 421813512963768831922800720073285955936938917882718825258381124870332542445; 48407601543401111570941028220499820225300047697195205515422188721638768007735; 2241985633478223162979012339892977571858518741410857521505826314449033538210; 21933747802794969895556014339407430912177350204927153755537699494526538004724; 4608741136396191079328396605652194724196978371844056640120958641898676083049; 40599436988869302191379559566790001779402272511450145804995581789261621683678; 34729403922150709065585583536958507344171552363170402791401483941154606918703; 6870837585916143739604157904178898800111968915286424011599608080779970394639; 26013258514846435753036950060239628069578223609143853798336680571251538789399; 4399323463906449538173335201744364650569761596575105670222700772360293533394; (-2881143854309204114239883944441912969578066451547671326958282251325249519900)]]).
Definition wit12 : list (list Z) * list (list Z) * list (list Z) :=
  ([[35111111540984543632653740550983724599536402332749403350774988695760688040209; 15544629197913098537162437956777788892536694825568424354023342953523955498459; 9882341028795840351097222654051967395874973792864650505021441593359106087557];
    [29204152477896905209316732339779447644267582339747410024832728986567083464943; 23331268854982923564828623076219337136421991750694032725312324131478776178109; 8219773786046238242301400409674086475517392612910018484131737473213578207333];
    [43500519738862848843244028744353439854531403129461380356176689200345497511590; 5335467842206650553151078272029961272651466956876334250410321066102107081494; 12243616112452282443641185872155238064689998592583593682022212820152147820974];
    [20460535063640303919461705600906350403143575321385940858419501908914198329531; 14564383339774230255502100838656512670550827215238393610620916683077702868291; 5758803303464390769960766743358350428264663860943403734451016909973680466164];
    [56532369315625212057936747712945934487532625898184360859639470587390583019658; 12850621009869814907225565532287304245904679403610503460045343373953435558808; 15911548459259528230664162450332225770478747071962793658684382085336931640104];
    [28281420304406665649221284139616245361456609667166720531787349293039989997704; 17079953326199330679855805737981735693641406352570809857360928612134358310762; 7960062440649827055150441816752574311292556190245895960173967987694683950168];
    [20802941062437324633526155132028889415439398331234502463650350278935924260683; 1148665221554197830108021595410313499389968320308980701888061629113355221577; 5855176579669782394016978090355541310985047231394097795318680608813323281629];
    [41802751677285081218783943983177505492091302797970003777181117942423767156297; 16918790933972692932105801549280846667330731473176210328617610510362369522969; 11765763881749628665823133642594730640204942818977239404153914839152758227442]],
   [[39149621700212626749621435400351405351231184907008598760301451381081013983041; 34503224398479003962600496102980592214075457369331528461237883842917276072424; 13901154556729247207195609933392095227111618495350866612196765522111903641764; 23735660357889656123443867115826778333455432705454824254766872824944156825164; 23441944950662511197057211266904354334030362092966864799486141168011616253898; 10180272773421851300872006496993764512624811060234651883209740352127304345523; 49669277970702747957774809797919944833579792920996256093504092077688331156131; 65005191527137704498640749526376120631153633416826324846023299084119372167606; 50269102502091775206597473460324464888625294232422099624040632090307437043169; 5628538219076895618631275465743197821194404698109807046271339667658726999747; 9540790393933263989861601333512259106918743597615998187289375645899712612133; 32208898834107838970873588706784094655801824765246369373465779055774959764438; 6451534592799048048891873766421314671217700483778139156061587128709213704725; (-5685846659629062451257926060056915287408581570779645655896275414794569812870)];
    [35816276408674208138357107412040618786223352444998783214907265818651302778757; 8624639834949446674839517769377972254305260457187895767811683357457571768628; 6236457699070997223204384893047687122436108814617939691380237715775818899420; 25067082025319256209816138875596793203227681431304924417508573421187278936900; 19839065669088666161151150512276073106218008229337763208257571086938012872158; 14468214637076769715323228975379498305277387757932768800182648905067637165298; 10547406858923577143014631287778096716659444459945820706852617887064300762294; 78043925825615665629651083025744404054120618006281114908625916635269216662319; 28471052620408096064506842953524088600704966655397576627674903063540560495736; 2137028438631716674250517766738787639554892509952519672056043208144359538576; 46976865001120201079310282154613660804688312809163690380401532811152261597235; 18242244398795991720847491841944095530945010731194566156612340903114299750505; 29061335584760574424663266540187844112622858966944733450081480452034559661864; (-6998034906846360796778553335714647945060198603103394190044145967533720604970)];
    [23185922985978961765525879604265755828711139395011139482900477285540574790618; 36367764535089816925445391884049081669258296710246889978535540710889807755205; 53577717596079974402434807390494415436148070134076772028534660857240198592769; 22932776859319364604708043244886335778734389388229137710846526487709090972779; 5217617711272242339931914194062741385094770334069195805115007522511760251631; 3616564610263837837778115563765485425630265176152350361564251815676963755961; 52169500394045423065016532052705532744977638452620311926607443147315788657293; 47090421547218044998790969077878796310614685676792045772691492702681429450668; 4731302162236437350222676188948201867553482839496571366060429236738917194374; 4828448128022197994026912857142765749266234334350893406894605147146323643885; 36338353765960988533349636032675737735902102137072287284393100780872510996474; 3031485049702805004163930122708538758446334676515667654408304383722504971704; 14552605059712596090590277748550611178506951854296183584195115656936425666693; (-22826165449778769564516084814532938524281633866337600302685255846330662244385)];
    [18167163486642972927408931089990469852835533790385927556330226959460416146635; 40953015472773089915540302582596485562298169788316949519905298671571281921670; 3157584083966307612133930204206774662496024670342685212205304084698540739629; 14845697303867261047653586272361125927039948250003577604321975664286770394719; 5450101745232937753940522601685218598236181133624567779875246875009283448169; 15250071039376343907777870680939065567998295272927028399087578306697367909644; 16144330835837540604598308662467687183374016047032554136021045297955379010658; 63104195122457713663768159903283939012548523254346226363101645589047884809153; 3615028479763007110482655246535248491685702508722640888496728103783834065069; 297242318367264487742247213743132562874051439205344346188692449541448667368; 11831909197112539655494522887362106756789550822677979640519634840412061538094; 2316255528577624145592650286387777161814795744640848474206125288334200060349; 3712727357436533316182039143365694814228719385565057667029539023408602548285; (-8369351716743010139992642387410685543777268884787694411029422905636097962292)];
    [55491869311172224115196347105470389093095921906312072667150161200839285791699; 17819939247552900161739522344021332822595259425340299652709900145194143419758; 18594654623216956671088139999533009171405268606368366715721992862455971693564; 11632239534120224940413968009512886234585366780821222273532679303372243108164; 27123733697560816731565334562087533282159245511224050275666050656736770180823; 17172801331626467021199985626550983603262931496943540853791987858229636474123; 44205876488788066663479385878743631732981424569403888511153053416356403948836; 62644841386350088955224109836083304247136837375007364680036773699969615833361; 5760640264066644380907409628877985460983544484427780198915433428032601453368; 8711414804245821846804502895572207854960342609747365010772748566683628330396; 44532152498882750664607081183746187936544606792145743989282546983484087311712; 3691012376385475504361424864951451980101032418946686875597558996615993344872; 42682922518973101747453640765507974521584509023373227278708380936280080745962; (-13706640191394212352590819101632114469534581056008213015035167506369678518425)];
    [1452855989925341535426825031444710964900017279977137605352878065742774479284; 45774098314052482743588310333755976420956376268744534942713230606805180468184; 13430797904968650752813474152571473347112837461427482519798746549005647402151; 35530847536999206969249470787536839063462734506980667677526375054295459215821; 25254844516861947325128084305806630636492734263440168165253430769054919223224; 7472423529918821001371936584903375040200871735817091015209766953236762661454; 41418824759586880410479845421301117765255643061073294967764761675262273235282; 77682556104244243007102841642336787142840122241903422849918787367674376056987; 15276253218806783101884494142609874642599200364568257726079082723422586021238; 5858650881273971837846178067921176207014648088769857973015182726401090210714; 40661275106086598720510312363560907613335785152530921335259710194465875974480; 9787946670985178905424734444192730736309409896108350163862499742774544188890; 1020362919176728370064330345490887564565543762466548060868545913169380135653; (-32147847345014051062117569062744738849831963237009813919996624600022945801539)];
    [23334028275166191184164139591657077754376896079733520656064186218287653342618; 41978652946500496924928875394389872458253357230394695728294241695963720135571; 49966314876298968879072904209136046265926428952082564772401279796399899685159; 930248076196280271251067976183637113239391110558602314419991333286630747229; 42149029416854578300390890674763224120755861836897822111086375607585035898864; 19194422862564690018590058205523186288521087769131655139286570312695409031304; 54837801091034672654380410588213785824901669947250903126596845239031350015310; 50042559302197284412980890613705729810699084490510327698141155963152509816630; 41322540614864719236789873669153862896080222657344210001675368943611151935077; 36376089065231843917478751113062695257949175349810462743279578929510204588151; 43536575911133155727200134317430831478173343318010447634329578757953015094323; 26476572367233074056054728534503389460193757970618479202740316818167831186188; 17546685615668338133732687828134120095538759029344878078437069295154190890805; (-31567040938465966808543092864557537461486063876377784146745145666059814144865)]],
   [[28796363583862847668812044605178507244825877227342242014774155208318462834757; 55234959353662462202983325031925176159492936554011128458548182362800408727260; 38719172931530469311446099517323116700665521046712838431814903530284452669442; 9404388143137282686000604601206849777343593962747420254159419683382241104618; 15802448025299654929979192437856772025948106909806222461239863497234377381324; 30437438598954481060779503044979603697212212375389555547257030722390410763633; 22335035074084091255422194912846991857526248886818504407959418904453234723462; 73679408610037149610991710744748146809217269284489396458651671426497390914191; 26102349690698027934231248128503930619151469584981541992487957541902401717084; 10568212765884126903322678320082077035364183245232513015450629401447455132076; 34979319712427283330318585424877609251917578195913666049153751970906489531830; 16724546464405542777875470121952919561882143010349942514954044105822511842710; 17398031506121623840005270021991239408084621483067495672351675230633914368679; (-33371559581671928265793962922948275710435793984560314239165470333722350020994)];
    [22152377815713073885123024134220181662013025517934765653685593051807730951109; 20210740406512502967027943336656788111164148198915921899551468572151061000341; 43676407081436101795278528860245185451466301162281650521699511689520672610115; 14322749699325523265090096016223753448294762476152358331351486867630460342766; 54984767832863922176479572003759806012894112410834976357802606724823015057120; 52696185981201447002531965312828165645045946132299951285564839694313480673520; 52604782300034932847269540470393933038050673317656313628137451542145627184799; 121964519012323708204136666048861025672000912383348370325533317652064394476010; 13180005202297679462844590594396041489268789356616739340335710391242460740905; 41480158428171394319568870300513521859925339013088654387040227062504569354355; 11308360751427820381201043143514620561427811248553325836103095035302342447004; 8444818647322305348462594806980943026777805420537026903784708164559581370779; 4326842731520201641779919164263833868163262828799947826282015603900589090569; (-3947598580795753704403952258720785116464274226129311517591005415332623712642)];
    [43620949520144324161844112921540314179791160756548604822571317354672290688656; 55960850383955117084497078728968100220583635988916106362750056582565381170825; 37307642121170823507518390795242709207057485228015892226513605842367764099541; 8476016731753560761631582867177042005721411956291790980450023079475810136660; 34195073489666912487331255423040836473326156693889085324379557827997934233879; 7055301108563099943004343268372578784165597133584358504339781451627549342698; 31314212066998184539370956039854723374420040275881546378741743227589153050472; 30997519732667643533640900464814269738015868919326757264167708354059288019372; 48359210829707991147098902691693167461705427143505716219429694783450637185805; 22034969270569106809746815945062926502026067294047649410829785338656369857966; 54783475987154186691598357132142081192903663798693475117594743989586734954286; 30985174824765229808427128033558601988043057000082094487249041283874660314461; 41275829053848059833848636078595808525304014509544170124504020169195891859780; (-52952320377377623783251854587435213447275107304043467288386817072859885471205)];
    [13910242112313529748247338058346265735204793031963188360415155111564876935229; 28026033346964984143781324810989054090462624756509060308165423548333335784666; 16506021455718528423605425636445755828475505989044449752594144337056918748093; 32865582607102145501639121078523107712911985752100462049507393932235401831407; 34554616987195725783005149381691457395381431288438293539592305158228934028897; 54090340649733897609146701308014814488928105052275689791597396292793234154672; 29686811255263972070104478769658548534135208199824721875979820969365882668563; 171281733276547672310051187060520711617464201350607391824068849888238564014102; 52139830429338829936847063647919752151216086439304169143755553361598381047087; 9851437229288363269381187641866919792275599140713774871335264749471691755366; 18048595531477197359399723745245701566905925299393843786998160821172015280803; 33407529475113084080407943440842834308254154968322756609089344289311737005618; 4336398717455025466491404449459695873944597063665490726234705279625026482107; (-8736875611499885701750984203587117380106240174860676102814605725775850301978)];
    [11371879162373812903597632893053130771100210169456679508604354695621139343631; 5678923034335803499854193512949185707312411812586470592763075824256665264606; 45944114215502794385965899653435585650472519133142369091503397851511728152646; 3342108029964164283729907296028295327137762522728446598955286407171145097455; 42209469967991523397106147877006153749283175044807159784231044148364266943544; 13566704778171744187215321474157513976209873623682851585053795013348488242588; 27986837147515013265718278940300400385666435771361637210168545967352423137791; 30376016375214113498317998211563738054321208987376587022565890453505171773466; 13070183128644563819014657885022668391261480437567582034616673876470298804952; 33495841070985166299290041425621005214071254442242178846826476815185319991128; 54161400371146826722925740727914522025445648244485072712456438300809103610846; 8374452400781541042783420638690695136199009645345296611284523301828301607186; 10638324333595994920223218989069489708290659197578107104625745863188010708944; (-5312598229559648954047587907610862988961438490867912069618900993941989714740)]]).
Definition wit13 : list (list Z) * list (list Z) * list (list Z) :=
  ([[38107070727229784885304399761175946507407664445189676240769926092787827351429; 1115447988619171601840655347372580512338722245026012587745329700666469917393; 10725580934552436618384461274486784411418704167648112646005665914235911099421];
    [24070922479069042283203599593216734819774254774190342166260409047548396587218; 1335538336121197735432140423695801318061859284735935070999847779392983308393; 6774979611175186855374747788783340186809376329355564226171826536783056011807];
    [39045760305415020427837233741365710174568921198950248051471421116892114448063; 20474016104571014771136736005458832443376244891479010451848031943998936287711; 10989783636337448091750022456884646320401247164670921163468736908642131467783];
    [12657216457906541513922650052004728109288984374048301564551828589787977539556; 5205670515463877024651811310201883842179579259752775986437134698342206457944; 3562488455152233225410280837545821424017325965388112034393444497466009426335];
    [10739990554885214358839877955042443343207816373235567228811927766571842965735; 30454785825514414736527161863417730405682743046614989882554760321253044861135; 3022867823068805422255295486762722780767087468027869447367675886759539974344];
    [36908702325102356442341817404455782440253987584448694989938647075700669565925; 37402937366595944483664822595739534437617791519038670002781566559579828586425; 10388289270797142126901132569478603832492705857362460434595195292524565027332];
    [54179234391491440105999874418077014594410918841259335120667102949119793375502; 6689985519803537108659744966226653054361240084548609866628829438907077751689; 15249237276660964238076863705329584993104133486759527492250294029471324810139];
    [21409430351423200412433706044042466754506685405211356749617643379932063468249; 25242331394469387836180285894426281316338972172835557109747550969305260537963; 6025878494847665534523859005574196830185318289547266290778907664445231875845]],
   [[18362839244894279592215249911553963787851060777743113998886545263569847927955; 4210807820446419651105742493190316853815492326276504789502512130186582234685; 20311879306724165467522162234828938978794576816555304514872253325153899515594; 2233652342494499683343412358100016859012834438187457107203466019472485947283; 16514601529163156540417523873022901093200945476234645883644222079288455482926; 557035753346033281549324058392845421936559278766968230398865951201783038190; 55144577671688794066762993125859779160175858850349020860327535586061444881429; 5021584073078876168574047111238023305626838207006450513092991372007208820260; 44088273537187360270285446067297839480564607047869261590066220685837862165939; 5793877548431031254586043777770217884949118003506951226446224881885806535645; 54098766841097088784680854142537916041041360992499623388500760758091120787280; 28248659145459213501472078873113302621171189505832757608975492196377710659885; 17158459880866174682657711205130984303985946435851072102612778466240491329854; (-3934629938736546461682787567345091220208845913347081794539860345979588798615)];
    [40648602147481366404230964208084607936291524021905498943010659929710864738154; 29161262313833698781875629035490362447412735883096315966554673246769944192213; 4001078737911218169159371565868664806939446901164488403684428314736004483614; 3606809244853613711736966968230667879409717241111896294421866484320924956059; 3510825507005885011141368755679435296019452087598653687154635369951797430061; 413030867345092214501743672740894302024703552356847935891659928043064395901; 23241791825688409199551462006890553841575747701700094436267664715308118124503; 6648101670928619013386287234024209702753406703399532409384402828470247810173; 39931101314310561984860883521355035884939534290032761512898127241980703978536; 242626061609581499419727286469948483623295516095121129138866919270669248982; 1615656158336812841159143770187246136845786589491207511644425898655806977722; 25585036106694391691432529835017439731810541939239425342642755651937318385142; 1134346306728465536136958122165520554696007994798833636885773658143192678186; (-813778788387852449026282763706492185608249734082566921321218302376236432152)];
    [23921107455925441612550629086478938150848187330668405596858230151041390475098; 12599238266398634998434556842240768274292438963378237556139324609460374067494; 31510578538600295797380380733389734952831877014978050206933584004839670404973; 7984154958862209215981711073854673713216222346181145097182009960236626470349; 46555285457270234145614841893720207203726416388388208172530410572900998188306; 2860377860959599529888275287883437557552629270130242858902101070500497243828; 24108082908958296640890238734840510533760495407367261162020182483282045961910; 20559507962058433729431824458785450816430986608202592625604791325459009504881; 7851632749321833205255157945077650841650101674379319395081816964178984041365; 25338241816877184502458142118276869906806149760154470428293882123054161496777; 45797421365918923587584365550312900235015501868896253028649043104657266458774; 5030773025934801074381222671975147299663288642893165251126880487914229948749; 18922277763779886579504350926895406766485295049590745797070099299811110347131; (-9966356554691387170943402504459755877098784680886434938704804116160852791409)];
    [38861732135373215919235043953716315256663931604522272456239697908052033035013; 45371411466261587678854225972591575580762496581823951857057733237243655384450; 43331513194480992820706072363447319498954207885278070983653717540293553198185; 4698558342123379200293758797084358371089530157249824758040366129501002712497; 42115266256326305133302227806260796751038926597467448264974580713976445062310; 1235837523571997655145940022386465686288219321059397463265672613376853832646; 14382241360898435633178896180830832234763644779085882614017511847683931079301; 10755504891021877285383298690043504787336878619893037221940428228786416256647; 4702094223027228294836614325682225403623096257022171804626744991585760848903; 31520602616209967027985294810933821675413440885771790948944286789669307831403; 16656943345419928207569864622189851053418437564710238076747932040967146271445; 3012770660300228344188090919061676074987576387126751952309420099444939317280; 11180689021978304149272731703229710735636992443163707140846978310397090259608; (-13053552021958006632059271208859432073062052204411400204118513425291008395955)];
    [39419922494774704705190034809932711274512553486715856263729810133043890809526; 54933698333180584196379405897957482182243833429209440878928059808247314311375; 53857954118224224527513804656832160168055942085333828423353823526868476297915; 7633179862197059976921582408090091605007694742767666019738892550850895580112; 40052127411477830674160237328003181464181346033260289280704631449332086688617; 4450403397558603881793344772957798387318979551172061147680396544410633173567; 8344338130971198647585262145677632244720404609241032993164912714412670974411; 24807267567561167322929674909850443377644649401123856935005711093809218973680; 8949529478313076563613241523720647102648390255534711239879935208838857533306; 37258601251137442256628370622846263584792883962917474314329593558948355784701; 53799414163494903560196580421887286594760082755538794940653305867098029536831; 5734227890141008034425971454487227696208926588941926377992539815602001701451; 36630632551118970231216671576442523514892937206992010575336048871598210746397; (-51046678708804884020007173067695134455195097764593291587700769696905343516318)];
    [21561645820845874778416685935901963963878576887828212860069360398226320857443; 17963549877915917711103784496563065564462906379179450896555302543558827309441; 30423521649535269806412097161539697379432992873330136759267084741737110451578; 7742819015588725041356177496375163765979269555099783922943614066039534809072; 53927363428751346961180148925279666799429529206050686189864186767178830024107; 5388351602952460823571855966800757055632543736078252512947109829192628295507; 29530022024666395148435179790601887106804089344624346865090990074642174152694; 27787821013982333010376274084220737122171045180766714519895344682526063890807; 37728665285433010085554898338791139847163149055365296423676548830812875485495; 28338037936502475367974444487867009821119013392187795356998087316737318989699; 55580752610403612494504804886535763288010766703598755695526382609726419186765; 24173870286899629323060116219818711117202860985082123869509192084115674950040; 20699384735781524420055878588432188255515046630622383906352915312563710366621; (-17245178463319900320661327784611947881006369961189580106117751434052459288341)];
    [34696320127735655402512265767697602636168153659137920083789137692959599647944; 42120638134327975966011272240411516459099234670144041314385743337890494036069; 18111425837940155936477170014991251952507663169155362515961579545862531553310; 4235115411278759669752025520881008352156126422664353786242877077745644876427; 18931296590383605093176016675314035009831073408952443649424283694482183603600; 1762013585765079956272988399150570206609392509263075758846172366468811155654; 47061624236381805544334039027721872391076416543987269178984714637131375706220; 11640454854641940582434188720985521483132602184700239880080015029195750167112; 56986739073681154712308199567451449989037247411808344895025589364747047676307; 5922214142108850589195988459916775824777718037116039171565808301718196127457; 56738204641229473392513129360393765342400507999655273103378400576887692544238; 36513087012713612805533063446490209129053298554957995876347704526563346387703; 34002442216417904810619236939428330609939081245976309815389731194303076984994; (-41278284239032461509324880951817593994597550550566499976327412448039062629387)]],
   [[33227521516354605999830589514515865710822327852925376114255137871690735587244; 22681039011760707337500602565057111277108423406256855863837270100715275112616; 4671028957927050642369613450551402118220330625055316292225991702784382857857; 20793037561297509437863593827133041477987271483291278169125601665818836542171; 11064834301901528679151493874520373262180423629821075385833018991306078163910; 30643685048412637951361260727406870401694967216868781220533773348967333811199; 658679344016882434603026908812754962779132732478823157565505449998023138316; 101921385398648923061585426343392474512360183045831173609154476953396691429297; 45709965005965004298141821124526558205630185673609175139139210461545519013065; 892706259629183402800022767263188547122857942260405835828659144908860324945; 6393805343974478036781880423968971143960093004765759093607027288521695306052; 29287724771423420758976588905384148775499327044418352275669432310832779368627; 3669513280874957981317813177733052896023530648007546781609880218001906005267; (-2504802346956088565713660946349343421168174078339131969959320895675878405467)];
    [45816511225176877996140255040609219587091107439457578341038316968132283752617; 36549853415134963004198791385929027950142848447981419764990803009399724054934; 33758658792370293456045831134522187391627969777604088292121682017499534088443; 19069837903296098336338917526943219252628856426788533214537971341016752810057; 45894105387922525475056358195364242454104763682354458199287955548660006590814; 8885400272875056774043603804054071424542913481265260690086422838003013564458; 57131603212943723297317002682964748262014452032468840456171029004953278418369; 53989303775660624991058563745184365749457439651044069723910902345983572587819; 43849902633384024452115467946834806297927137966884047791031114485047629175142; 26760436823911469369515062097618709214720149424998877002010039747533602835540; 12135446595552232019010527060842055062476793904750369907166273531160472502370; 28095927866334486431416018475132800658811089706314384836764835941691910084560; 9603485502850234365803177470774671798881903418405460940105802592229675311455; (-7661124298147488677728496951345954367378816625124351840551341725907934484747)];
    [4109725613230504426324669336546893204699348150375590650961079986402263006479; 13548220015390787328262599706228652778399536104956932282542935971617933593799; 2736709858305939394576544552485564243300364906678061208729287808585734540138; 36257273094788708965634646762831318669111508388665563498523635781817993046499; 8465520359852982886913953536623267532720877203110627576759195299073322876535; 23073973247515020582487015863682488025333745621749756789449520736949845625729; 54009786030574270358248438405576513153316664152076456616816360834669876013621; 117179300740597914795557203691794249273099045685816520279760529035016592545020; 43298977705457630013634359148201663754544368355733992655882225674088505275129; 400159858537781355275164416345564466668787890181251531269232361059009050849; 5728810501547043492337408984137703289420512296432566368029907490487588336396; 27742933991657073855578933041260998947820313277096669550156156218036011940251; 406657128420899560136697424116351094698527084433965057672976885739708329035; (-1340595641941792085354993701045512786882640759961479817558177531708241227622)];
    [31674252996734707212481088088643240141425643801543286253248344469973004656554; 6786196619175573608309283443380719738877074976577908471831120085453336700494; 14769197494204345129043083756603355056131287032937952768299377415017810006516; 291727089947000854514332143952436513663236848571218336271142585800198637825; 2248908260134577060666370367980902957153033921118416138393754405261032325312; 3170411153204785677999058947771369400785838720756792511132296034018686099861; 30173582885798693344896823428651017231515622376207406016229266607434772318272; 5385567284899827954612691253917073652014363896630551333740107239402760721588; 21683161542634233947705181188602162412621911975268896345736040925009261241685; 573693254160078222045862730292879790896809276812358449425578908657867191543; 45375755384588329643408779115721501827656739221000745389823168994199787138744; 13893042082883070926909386349164775458023943813654486994163143937575797347619; 24824548299215229625021993866086740834758392444010742140951174864737219331014; (-5318650001250608077247954613446786738048437057820512757297236642916057247630)];
    [30407400204072033917609480172618297228059702465168718418817308450301417256315; 49315877793598952090227901245738270288685983126601288875006392048674637302542; 38753064026922097087583054278170411898637606317840381824127302440005222399879; 17328615616304789444800463566772476338924088345166012799735574643066048939313; 40709147454971181750106034047496121391787124572157512507142884826362733797696; 795433692533612316180240892677991882717870962428264808609737289252299120660; 6096283448893618365335384791184799035695318889658562545190136540603068788083; 25549347876888830473808489670618517730519481266899069298081005436512368927329; 53617250880601219320450713845498068829775298209561795041402485503402708126464; 27248911530918263987403528424911245127792391767962131080958283575787561663680; 1956083428049084662522979769325709493149518254317130683015582386357511397816; 34354156398642743676341257194498068117840098071165237062552650349462940443496; 1027348448775951317758846188169218935617589510279789599450717923838092286003; (-1666192775812957354647934228142644385191036878280438466548955658890584234445)]]).
Definition wit14 : list (list Z) * list (list Z) * list (list Z) :=
  ([[35187445115013480584449630665796615226086542422399353313325934559210743563421; 25901037667810007350964519310565376511809156734143856291879374816474528198641; 9903825806047060223348290833261053143870165524572546601856996227751489344481];
    [48531848830497127190917458902887691738919709381063364246753534833961462272744; 21552457769343967226819064466914697637387337873564827585606559086101516227371; 13659729352091328912973036531738415957683876580516609778128877803611331958539];
    [47006031227559349367710535015113392373305202428627702414247985341017868448435; 20419276981907594199699148362875838251157053019787583760711964072202296653415; 13230274138679190240066078946111017115968827379596000866910295481217561908405];
    [26913872202255953080627590844716150946083053989678329639231180162424071261973; 4027546609984621413976141979882017809065937461722933605940968561534338250299; 7575153614765446856911636947762397654214555428982170205035363482666068550744];
    [8257628182104221604620656802275335452596494926535541966733773019213458016573; 4637645434329683825536084769735033281966950970245598792614965143420522022911; 2324184402117082542605409658714156685012364771294224344589542873686532443899];
    [48009198844522127675462193605215805252882981884638489607679373468897733121328; 1930127575007198993728988461886553538254139288351197466722041029140629570916; 13512624769712292177917638106102033724127733562848786334106261938988164096843];
    [1113512099100843766320540552223127657206063115761367940011394972475470743586; 23444071401767855760649460503610784620339313327226536136840400338895275181644; 313408087071238422680786667354304271475715691615835843520377175525208522868];
    [35936091494439235029460010819927767650367147721502905873935455995229631522494; 7431556311379258891596164787399632916791106675280513053224427205165495359370; 10114539124616385550185167676405951337425185397523922120781859805538470089064]],
   [[44417092014879103586055534704850737242542372632022894149816268053224964424171; 28092835439062208164608941398448814112137896638247692330991965419364853280613; 20495840434490456549651655980107922696349532064696614367799627897971362446159; 15970175393858026649459169072830174793945990910427607586055682679537388685234; 35122418653931696491864389375312754966427989170439419510861251065724685521325; 42007287692489620761534466616765654436607983946367323042439900215085267429011; 10201060081132918786844321678326000261680621414294176465855164074204405454428; 109779538421967662112922674310726582254172288325082643212254332527571712511529; 6068645171733060211862874678444313757432213490544116504354331318984056209728; 12433724845036572415871931671258623083440249923918944084130665806464333133903; 14626578219441239942212733395204832270078457105742805143061623167753323075165; 3888360218651477888775585583138481407793699165382001562449179704859221983375; 11221320470420869161614129826095963569244209007816084621753442645641689976658; (-7097238812457894603140486681409073494862926543322263991867631359954351527784)];
    [23139490686232335519119394259782877347546240069053257024253368814698863069033; 51089947797712314887792047436925648818761031234432217926951058567353150676190; 53527923955669671120474470772111884863517982338972839975807562251395193874530; 23328161737015485880689061464730952077980193744922693783073496399410283838915; 55492646161684392104487874673831447664145059149214627577035056321004314089045; 23929490322072863165073203891684551244982857132482572126920846322622897883349; 2673256608420547652518488577002189415420936666798386820617980339912117974879; 99846701826994399508328284685465676585804299522791134773279927996103543825941; 44767698269522696219051502041771877822844166000108920363756151042114450384751; 51305856270607075605451786889676807046835011715258575089645874784771184013351; 52169737997967744409113555937198781871061366336718845313403418981433870241861; 28683986640480017291241265774056241971296968426170753431169026305525224629256; 20850840060982659610093061261737558487809033726703903856099103454868334413958; (-46036809742224451383511456425953645432346398606528514495459746224646791259275)];
    [55913645708648454082380885333952414587415523972517829512720425474171989429039; 4170341877731070479064719941590894238873155105706772330803492495594024043916; 21626590529166746109045381423660675057623836355583607303464056414427088674271; 12153019406578110582012457199028719804982125709309439355951784745451632447076; 41695087669079826163736045929849382271212671172079134008615689810981721000340; 43518441348951135533138388634294266324801391249658676840829621737602017457360; 38132546407072832671905854798273111586822150331846638618225581567987938815260; 102214481124664062521467944707904979103861409235774812232086064039817599645199; 39714653994551998353016496090156442557445220832367020015978629651147648360085; 15574856521481637684587205768431446062641301360148601556650312491181953098195; 19253830773201419712384679769507626147675676214561365026866439266774735079591; 25446351915451326020493818755512184830319417010398723105433022162767041966616; 18594566856474299844843147206488283318110423713783799390551385993711866688011; (-1386883288989874678740851598317565362609421530776297151061118447322571180999)];
    [12863657592835512097589454641611578433821798207501845828448188839964413453659; 20872860230748892301469647034667974184263944980291474764336387981047917462768; 18816658294518738286059643260793946598731356362633767007277158254677082097270; 29366230683462794013707346360714703739377605699842931857244877793077829954235; 3365652585060652002844645889069785845511499435988845804486583201671299955677; 3552299155397470971727809157021298277082910216090235549372392540352781698455; 23917176610694411232015055463754161352248936973109995867195422708543579256329; 82736091508639077610958921823767857736648770100957530996898136228892188414194; 7000082154921405073097296317839050185500092423905235646547083942312502793158; 1093862889050291877601335636622130875520243462240953144756235547622150702968; 38719701309264050463848108693656981938621866820625947766461886725253465902072; 4485159406793172558260317052069955100115559851606304512571942274119073161282; 8602953500880833481178946269003089519706486127807976022712918711310224317025; (-13959345909170426743718609513974634447092626767233543908982042514000548565775)];
    [13631176154466254296410030774656329407863122029983719092958768165132584121068; 8197880427633189119291962646948905586579271345240818508197811312188473776259; 13960013426527058042111453106732026808434852462485451076930873309050571093386; 6756081302097167689113411611533427607347920227471843949075745040689063594251; 23898366351000266285788414418300345421049128007456989452589463374615061845799; 17779512074141799374778529636362784499745728510963568115900248923274284104893; 45656197020109741500816692967867672487864165295704061862058345207041307514955; 46455432436505888843899777910053061922917815510224601137834538126935389980216; 38645707891873064636651762621605871770775783286061169387540110826486539239647; 5762423276572339719160158630419614687776172972458516648546186337274958010083; 3819925657617523159171739567648083404299840606988944928110647887960441630166; 24761446572674081121678925543432723471560059392639673036063397658168742018531; 899371967099272906949098973263948773162839311014705890257512041772846411714; (-540888310934881809959003344160225031560714527228543742639501241448537204080)];
    [44425445320030589302245504069429846683804417928809104435227952492529793431834; 30552738281900096527731459075323140707277691299552065462069213503981815706363; 15513493675348236781030836499887273464470167006412785984117077542301416094309; 7159187321191924859889834618924020677583216151260317593465771923904405382939; 18837868340652488310755945877443430011534980816313591900907905970190917330942; 6982958369584480264795006106775355361762025535243125297996154453680014742364; 6079551566642005255936668861363404114426573665927306807048416026898298719500; 30058770988316602316968408776229043731704700388802559707640873189337369828711; 1606066818151867854931239904367023857417898903592039444692488254896522760005; 5047687683755427247136506090241921284655977497565183283342799313017606237077; 32626875498423535652671471424269604851934361640271175095579356471328439128321; 1029054450783529158772087573725867085340294815556666898813168197445945718246; 25035621741792417473042889768254681559281214296933849989812826858171542104151; (-17217763227614729686635256661155684035394417549063902624656609692823682922639)];
    [57358306754892087581061482960601343272150180511706384027111409727530014615872; 7501227636099754662821696917164574092234190941956901631865902241653090361542; 56060933839448531488113419666991033519000412085749441975228166185181262505910; 23332548950242935026422116008774069784817625182107125956457690061711459764200; 188534745763186472197677073117044208058907962363448788456529896341208881862; 26024836710251249605737460443290562493631948180889509649682524539936373461316; 14922172134352325016476205912237537977486641161149091988355325049547944398966; 103245508642757460081798360697938535436008441788949431236285397532402212438787; 1281196862095090425466660455283488268513630138582442222088078719771910881773; 182558825534362078766311896803478222732661825489614449906514593742008677203; 32546309631119203519662798656684965829352414718594862615571437704405592243723; 820900673849906910042686665063570167277464841888401718005656277019210895308; 32244019843798136523923128723291928075999594513180309087413224287078745065566; (-4216821353964017022674838644323998439211732344041858214631034662971453767704)]],
   [[48782782515836871628938299209492917508321674529612667649282153140637733656059; 20014236295691833912353873433172840618145541540180033958100959161035845143094; 21514423629911879129360109787807327679539412640216098827263757084298363377923; 56825563394844461765190150590443309049689617776966207512670618986495783883089; 36150819914670983865658493972032628921975880312566781595115115019457156698602; 971887050647552351225127609462938263348491954663980103709208845337293043938; 13745337296145137630367640391007584048979603730148128130792200086301653481615; 72660563068250531899607607774705513146620323082191213722828682242164067645769; 26985916609367251022975074694608121621984199223692708977817901086352189265219; 13433802936552200137665075040409539298373706312482261599859666876732909340423; 14636396284759104736298384184225301242436467672350682767851357935158793320678; 17290673888212187903736639223925962233013152815765827169182799460708701807983; 12332520148447323020669184789956793798545156630719932713396826563577141487079; (-5059694417641624378140041228865710786497749928599952618986273762828979084487)];
    [11618050754323719385443732951567856244563825728122233676622712000620990083402; 42578444816027188744577909552774348432010679314070739170427174452067063733643; 18464875247740320991855995216138063252190439638509353809262367462564467286007; 41104014715722338925516611758816240618595597584776114412761528149801142533226; 10485604730453967061625493485749345726001905095483847466893490518459004461011; 6918774108632236656428447513678223906585596176919453338341113487308673471925; 3704277733010414973354867283540450942957093247823466850807970687392685045933; 81750486212464435335927257315293834312448476021940179388103814372908933592324; 23079465866070112964828023438764772552017719314649196101596069618633830229998; 3344190169125164205450603944479730888432309442117639277762496189047763158371; 49916774101371743781554990773955236400446457789794775677359915059851101994952; 14787695507286305592138876655506943963741236739709352506862406975823979053962; 10016843444516647411169949041826339921508741700445958128174881444237149815859; (-36710255864083820606789836712543705835415371766427451068076042977243230419539)];
    [31547400550276104307900899036819671847265416450370273588479799778844560833009; 37367989165521616201930780541222369146292023138676617257266389707008216833638; 31273140043360186706582089866786457724711050600330629655605954828883787710381; 2331404575547504166461030324805504048876799578874224213817721748292465685427; 35045427740426205295541579314770150517539181118903833336539248999628975071767; 31313433843237426869720902950287429975150999458186052288486471855543984309418; 34881519262610878181634959003068096658557593316136358137342404745943494925614; 50733347182071188637979797182897548957444392034842326082163183891678562791639; 29607191014873119190801365458750032308811771746294754310849019410180818425883; 18930145864448366075009812962284583396795461775650369841850677026325376439856; 3772287697066018588959489447983692792828130518573203680933294170745187361385; 18970201827662896836576532838565077907002956179067344798893982773499956441320; 2055509521489286603250954378372337704203742776201683381460100031771139623392; (-2434757101658124938570667728982100921558228242481173896803922695066224489860)];
    [25956985989161136316235961527236916457717926829394295299028523314216733689351; 50364565591067077996626372578228644798066456462962263809084137884269951378152; 28931246458769712477694712794529858001196384164486647298880935586558984590416; 17190094557147459862359014191743454243001984980821531365845780901258165692085; 5306433998634259628591588450120750732913083978220871292973909914531314698147; 24118514891162967061948057840577926932904844832591099812309564425504568820453; 42856224730322483496826187432994467685051442395725000362100541813714015383479; 82032045038007938612205182466744528377093351221130310749064218170913560442370; 4359635609160127567314717153236456418716461890173696510631356932007865519067; 2651679416838906737995782393989688437283916543747113987274760942875555326665; 34271232158522644862682368159934846658351692146554506013821766331928894927679; 2793347310769465130028264064574720629601053594664824285225678740442466724794; 15365089253150422008400467960645227310330835768975990875613120723353431107436; (-29813016265680210766459937465334261662486873322912804426548746544371861898831)];
    [35118750000941396177384144572236461584765045922296921590426241445782749078564; 22276559719444846469370701617737789620267379936674566170770241509797286014565; 41169590906554677606152591491781451779129989420583973833197338450503217695945; 11637498314079541690519956427048025146803644718904922074802953701844044097544; 12554029786241182465120769429164454088709496763700812869678145074859279276849; 43812828387233794802692113436858146935960905461486784287066938875565035141995; 32866323672452334377826432908457144345268629406562850222576129669363373663162; 100611005017365657390797591443797142863541667695093756462713010323388258068003; 39042937483648526173422277358529933501361325044911064656259593733874094111146; 8927108474033624855537983066255974537564867074320698598452197612513997589291; 29280483498344602570753670441726956236214499675937121056209598628312626400852; 25015963305589243156256749062878708645789473590617280466841324852663480400722; 17761040268952446225797694166285393607344500304962614729544085975540931321476; (-11266200369323451660858883351743407431414361032983022106462081906182742985341)]]).
Definition wit15 : list (list Z) * list (list Z) * list (list Z) :=
  ([[7409144969870103820524925611972696916688721049115307139576546451753046568819; 13512579949479065674819406174017660166124047190306873449400942639580369228709; 2085371100786019391038215710686576637804222737707367528213792322372982811160];
    [46552917671790097484562517718904298076643821420777021296917491467931252782207; 11923365478996644918563456047240659025321011450721274053111278956895217980565; 13102741215728141783746970039009737998591151354799930278727356679991434092299];
    [39168734791267938831781098504808128365210662535365384902047421454877020263035; 11898119313907558618134792142776706546406552431733733413227534286105029212565; 11024395921557208236939752578359192771507848765152567196963094868745653525941];
    [42414000632193492548731604098584829473083930098332983081973783367648035050346; 71012568477494086739340694208541180467913394449581870821996361409670720542; 11937805448102460497088463915571637930697862198866689729744630690922191181298];
    [31136917600987456766602987477434005872652995368688897319538880761489406355531; 2318780417911968092855183559579808418322275237835392310419043754639097788519; 8763768072659695145032734726030691377238745199196016962917244199665011023939];
    [15622045853132710072267953221147506897380190986468511659058245812938370310950; 823778750557122002450563679854179623268038221490025539934916987571467750582; 4396966598677334043321419214118777852431141486862621547949226321390212162215];
    [45325641133525270366054447843300724505787092572741202718392210534585687936008; 7253876280147728153381871761571503775547188776107025623357221259821350555600; 12757313094672623069840123879686929873392510627956452467317269060759392909115];
    [46789133672297026358009295838471323197393040457180671883701612162379181008258; 9544132723979036562734255542166057746430891691432605416688416790456361708854; 13169226353082532265412443301272434300227896679562860026510923404143414548407]],
   [[15495667847963519095070902975254013254054297059438951355864834066532640060236; 44548947909159043917403409442457288878516759169055680620236387754235369409972; 19859885037386499867011145544908813044594430295349640298953887053888307832271; 21302432830293184497849921559313773717124544064115628491337295844104015333925; 13187641589905115826548361229984669102995576847681520297945112305998342289033; 8571312879879677714832402065480285179541874411277430090617461192072889739408; 47865816567031823334609357998838875980967449241261774876052092263392743258942; 56898905609130993562321135972829379228914512856006805480756642315337643530751; 36927282226531321785924916322633831779888154202871575215345994783186084596813; 4523712243467641945188929864653580089255439752416375170239745949385956494370; 51223801171176713671322708189419809985036138885152162018720017256066599276710; 23660400489612950124289257902215247944382005333329390675392443437963533154245; 13709865917211191277885339718030649310110825356372635044230331390841498776742; (-39414893799989654280462980149396256251727940625506832953078769880883914339148)];
    [22952591816260144837422944844625020742547573303797955280470639547237686598546; 30012037515872591342985336843132823276280335055363382674475119351580142344070; 12674090375282173150352593786604830975966800274085261315672245646330743577507; 9399406968725482587506349020917529192573249057567469513729916339246320718753; 57337271607956531500985653990982182136623549377229197732237424513083372065061; 17141020687568701925073411104033858890826613628318331885589391309750552926331; 39311487216871830863635362815104730599255520927245565386295506095631051971679; 59525298163650453626222894655943844347505909431530711001000759807528473460997; 7641503922980472967577257679156705233311568098458890054835761445267196773203; 12551768726479624836458617278779665415417969144055216866881717130250491586476; 8817146289317544605372394701174886921980442745847272333230046297259811385398; 4896137280061338173256991455120255095612605749472841831117335849504416389583; 3495512708958683508163441778741495502016635457126769682586886863424946843907; (-4570614917839412784790202600729435411857709996461020731787131149542548024542)];
    [1871107102280547590065037923261765627391729441701934941391723968422325914548; 2197280331012323570322413448915527766660864684378650497684553118254920260348; 47777684375911346896156622540906905023565972589332473467135896370273038713260; 13922649451757595368238731334033192835521314781298616448424528875654874189516; 43181035170613628343175732254309542899416199059878650735904127303933780318162; 11547679127791351999617868815028044327782336397306409311866219032866612878012; 10895749422281182562009127415609430130549721016062907543428345022277309108967; 52506545563970013975744826844685520861090262618220746303098379149585661640853; 39136388887828462521066796169877887321452910556207404056316023842133402843203; 35634383713008181895949569307859052576355264759300170598289392337648716503433; 38514374688001247956584856289827469439529556745979213462969404021340948447686; 25075840380637711405238621269893238095637743021132840589894593712405350867471; 1244722683445444333276760955104498187959077345362662390277851742741770851119; (-1461703964762929988538426066997158323097709809629923158328386529459870969298)];
    [46120129725777000860262416690141761445267907089239430850845714903932363317071; 2910837747736631106217498194311086782962436957583270370920944855478653510522; 37286015801507747432827180127554638811162815735672131885397022723666113067276; 1134981551551448077028719166104481297973540305233750523790446912890884898004; 36883786440953765084722205585883816370564865807242006626723604049120709089446; 845443705810313592025321171296907458427889945885617233001426789799728714526; 8711583459258244692487856967091922033145894118335025043965375909638907443357; 4033200511958976126762879257964403927569497512402659053080662360130934282623; 52734569826094633669220316644762271969861523655422087723038049899969463632515; 23753772008349583991830641127563803213868410808148519534843691632553759894969; 30476259696715658728077332625401467922508937490811111337533998118686173633232; 33788596574171972183552264264810570836639283584225904101798622293427247854557; 24277462476530290463027175386865848020157763136778623676606305254525838331492; (-1532254020448843011507045875418151704574748235716723999196805440460918611896)];
    [7850332680771880085254092004185975551221521630139196096777609722516256446106; 6075351610890980967056720781534807816926537950005787620912557772501047287578; 44784185892208254902022489917782001312131563589404759192936332121973981352260; 27975681525721626988744956616984943265929989522713692864176497232009408335416; 55098761100438468160389489922624175762268981552939956433845813363813808094913; 1119997943696698837108932699685450777438274798316686023730037836814488635333; 43161101863675612173562302576486850294372514822654421553396269839954909758351; 48606905403786189972583568348872031826453795709335312540554158393650589022154; 27501916507205317996958576556816174820424229707147355604987168256248545255733; 42620410009100926618931288426183732104548538102377396756620776337234974052203; 12959300987469852383081714319381038753580125801478039054548650993900806950233; 17621290264487947039048755079369790312216813463257377625522123694506726163518; 1757198177042787198324223047426969482731928570665164460885243079173300468674; (-1359891002033549435860649213130046588427189114058172518564328840424259120681)];
    [13824609298834947356217226884073400702534029107730269023491857080920049822122; 30378489235789906581978806498183118776022304319967645704523487571879791134364; 40562698192539622818200091945875427323333581693609049116738333723508882684215; 4761877476365633476717839787411527017196774386613702571028059559226410063381; 57808482921758516271171526420782186238185693451519408858945852678992697074560; 2337602402168647856030820289995760087355665715661101040300500171654053476490; 9486579958177079740383592258898742724843001410039543092253552854595531384321; 13805242970445132011658761872529480795785790097892190480050446681991776310335; 729062965365318785157797594430183698159960941513799261298859185363795989318; 40501351364652528450316958217036035172896075422550219840313221254603943778018; 2049968396197719828387584303741557964385421623743642922996485809641313920965; 467132177149355003838180851460596799352816359506421033111572401451800144225; 489498243602977586136659558439679317890668106783013673313525049117541495994; (-1075633806554250333060480207774154835808216806976639515579945807826219345379)];
    [45090698995977474290632961691477301097024747374015152515190560720018468165568; 12254579022675596810231884862276069575540423112673550018377525848277481401878; 28746652004944684868653130717469290087015021063079541744785746165730838435468; 8385771446466166684848791051604354998168330214909517077017294733847223459660; 57627290631802814574022157744514036299854135765920819321145479682892096155205; 11688678114454433583380575593269875377850409194159857714183117675433894353795; 56536634019434721899785185645931710905744314390187754310842390534137800896545; 43820792036938774534733354832557219152837406611593461107259393336706243041801; 26097956552034292672678604582063618822125050974685123374341881768147331926491; 28613209774375093862118322887701986263029808096568505454130168944810631410501; 44416695673592956743905998465425262116916054953883930721731350913161035177272; 16721731650698085622101989217980121030351604792888553849447022119868535665917; 34592688813295566529867369857244951671779870066955144564667236687240190159408; (-9401469662450215906503577228862760263742282402889038566757245266272516452439)]],
   [[5054797618327281071443738716493596768237980643463800357794684862056619267462; 32528688704343641313631911710448027152095479374942741660511292005602282822378; 50151567742083915403006704729513598861750007393716480547905557551737401024198; 35117617262762300583152713546901807785256895692018546611764682948046755547874; 35387201892726500366004841035987841783003010303688914802120122892639194447484; 2593868165125120478507744706931569838570469419921823712901060243149994990600; 5428903123430175349673659929412225259634121613305893058242528757265263028351; 56799750875845494187128969338165493116689148494805581158042576772109473956185; 37715428162460849961215493787210895973570359825481576590130689447126680003524; 30653625210761546516591346748377995682755959406577611988460106603310755671092; 43131678769300682674783628810818196847887995242792716273943357344858358243234; 24165388871209997523766325992323454339089617478962210503210740024746110989714; 3765747877140068952161644635547449747887245713309398705231937840498729384649; (-24233381765948493835070850167098676925835182141228515499301918216416595238044)];
    [3116396207800974126741352651042756943303008617071878591507809562704911510205; 51997965663228500457050430249387147003714475761347555819390336249670266088570; 19237035084168597692816260180861388576713280536920292836470542299916724430972; 441325122131277096491263157190787100886619437270975191929543335744748813128; 55577030029098960685509260384899595515399504733310183339004774659102989356459; 18276129151715759849061023966257287874591686128391672803723278234362732515325; 54993593771252812403317445684731213369340208438359585651994662268621941177957; 24397494742001450154863307266788217327659948356402727036502934155469449092007; 30025661790380433118871206705308122344322725661665026044615348159512121379404; 18466499457531484894881889559907553194622697571518008065375272975926890028456; 36339994944930362992693000204038206938686224196389890502534232359186264925486; 19238328414422325578071153146419662661316046216322531399963748835128691845966; 1956089110816227522800299009586640903236281256632188693955230629182360233641; (-32637908544436643769337671469848862952791881439016530058865771314848182952669)];
    [14055490458127722535889980752338964994832593866234835702288268286656839412260; 46226773486422651493508693434203867574287052738705572908570241545752789081928; 25211711377514661832308726032615467661418129499638502194904493941110731940943; 167747648185044411476886314557423900395738270072115543440781730341306658018; 20703502737436449101484521674516844614084424605989492475905614341124186741529; 46700745291379423155768828473717279409539421109909340838191621233857667742679; 49912369092423444196733381636529162475593420879951552098705917522144322853876; 52466328303745048695870733516727445580080050903997178987668635329801404513201; 32807902731889638770627056973375761407914236087810977587514806607383059368548; 9015654505551792178565373900441419696430626627460700271943721580177233209151; 53387835978579884980961288146245330879301287439171272300729912403970019620534; 21020992368159196409549358295329076985796806619970285518014208974393391687694; 12961027374488193971357659391154896459470824250727741146826294220988016837104; (-42627219475313778403270140573561539771414809004769621692051614745375344834704)];
    [13255665929656146281080449887007641909509999304849491744738638209813853897619; 55705207129829464869897097349416518624188726193119147708421062336186161442401; 22377138122730296514629323477100554758979488105455555682115790497646546212004; 3412267855598083957266208258523097108354883138359672102092979726721337474204; 46359278102284175010122682680711457812611858777195863793230703775135365638457; 36909509121740019424688078886056935062039451780784990689666540563176640045123; 33407708805993165757724304761353864124869177875371771262462073551279935632541; 62766832694980484429679537780988797849848688252937825435261012729799195850847; 51793361363033542780558116258087357945557612287393085452765103705314435248102; 17918114720924494932442662957700849796307636178307431880248603005098378911574; 23982139979553878495493359203610903053632370671740308111114913277488819426452; 33185536510243451970627849628484539547991580769185540549293176888759281966742; 5490862768624574427204476576986317153329229547296498363361995783139397300523; (-23074634610653249738505199619577896884192347552040825843807360553169701646288)];
    [34445898214599204196824587830670445739267303633182408050117152659121903233060; 43048524062920118298805915568484795959327268000798232147099016825120495085163; 36191620589395833254846281770816728376233329139590356483187479797524249166794; 3034968630344394953526365356545429955075849616613034845225633653665674183483; 56184216138168669577508209592615501950648467373623606262366461116530571012871; 53597272867535069799253314679397660410616250546452258035565667071694993289570; 12078795296542735546204457583631374558847088176749860953344489035979989350685; 82140361132613634045472916553014331068799084762378038928310013394755525773535; 33044233155722054151451561017648308513001966276910059134453317246954767778062; 35121532860811529081147898874927505956077098718270711589036736543363745728088; 19992595548772836322661927821798773574415138234033249779178981319006321846076; 21172416251494359405063094365975489373621786539514109610131904936353286227366; 11894817959580326217708237342694878733393737678757224736619484147397784695400; (-14865466824727017007066642872131940015736633366035669837117712181920872504610)]]).
Definition wit16 : list (list Z) * list (list Z) * list (list Z) :=
  ([[2546723617105803217066704043024384113612712956060210350476893017486688072586; 25612200072165138052606391855159586987383555680369334235807636614409660978506; 716798477341008378390283343327856669789043302708446429090548916630892331116];
    [8493667445341245648361292062270796651158721786810104163590154947632220300488; 43075813148308527454907349451693886898840692484313001797590663119737542057630; 2390619795162704584538688584981845055498489872828277472572298473087943648758];
    [39429793009095178565915118939096967879375587605173578703268984407783849784162; 3351534073695751842294188371908829827573984712401616573701337425448889985507; 11097873126456489855926859870057670738425999226994920759413008581363323788146];
    [11543757158601053623050530508501701193774440978633598706901758191197578559992; 9615805574075816673703860076293511437175613332885577004252089228971471949352; 3249095229062634427594745999154507057679318436311943797931581604551558202031];
    [20747607484505391756240397195583583804917874632534122868199174546614822467192; 28374697780510386039252319173416779041670709668015160030279173947607466370100; 5839602441926278790300463248282710402377062605136180227003538648219535289780];
    [39925368598239139555428165036531959804003303529316568234937157052373320803689; 28805388958121817635459674874936593789658889320528819325555436047568989431039; 11237357374106990407641264474142327614356427646654912322564956570459060029929];
    [13168179154942715776557344185809233775662045677124711417245584554272960624104; 22379248525832606265872024381662084213779158174911884743592808772964549359256; 3706303543979898731382881777150982208782824225070756150215818696073868324854];
    [17023168053045613828573237880834348116297780257693827116166718009290689522988; 25578962303290807921927048443161787732083803427695317621742488782175665633606; 4791325159111781433972202242132489084004579645459433331958090933458405569552]],
   [[54468161356533199495368251232949756902362822455729558615345521844455465083013; 45786733715774964106052639328220628713810319567465451448853998335128869152566; 7295485168814431935971477118077582044577234959677381317172993919415690309448; 20493971766564345150785501134667995271558075780241789207459397365532061033448; 19243995449391595258698194910838967331353569591982659540798519352226735430045; 32008670647572900769980012480677077755224671067827967075668280493021484529676; 31632927852417633628803080114965317603156230463780461558925299306615801884665; 103727042558467522025978297325664247001549858208808424754742951087372867520136; 36472499669833024466709013745225890646857251308591139574075209174883554687434; 2424937391051479249346947782501390610736370868471013062136771133836533623574; 11948510280577163322726717792761385286776334632305278223625525432811045120596; 23369007872058203789902693986069109737936293013341626136283209205760422021426; 11241068197652586365224744213684058482067119198744186087654996578891353628361; (-9449406468446002111677206074756419682949558579310521402439481750361531684387)];
    [4412746692151443821523268063185684387212441150931176163599595845239453239239; 43972740745976811175176257864391345069695511571436714679879334460061323560495; 57309055869146667805166554676382700228479757180586030130173351600587503280528; 32406440791965013890079979753793913612020584286456702802961064743544661463348; 1000613935172999141362997288315338101960056869858646459860170323473938670366; 34044662655432004770170547781569445979205191813092698753183111735407120416708; 56577959492698705085414811626054663113091081935144473085573310622812469980377; 134192158122285084447894608275858696131236816174913824511352989367435479461260; 39585548144374965098619784010052865579848240850647579040320675903104200524109; 990469043126926180984582593502272270711674347311157817703853658355398845311; 41383870308986497223791863663706827722670981435342098388722388441290490498932; 25363629983682790625671142821360701726670307362058685451056156116141633257087; 3154214385753614587215869224033539562784184444312779962258669452459240382696; (-31431546181580384737179434223127287109409240814341143962376493641410193602711)];
    [15376680214472594388297076775801069075796453668683777673974256464718742858259; 36205286238381305703459570197756276983310200040700818089343846617668540962560; 37441646094113776071878362361289312792709995836356614805419356082521920531660; 2625412917338963638654106690386296248317856525801043993591445108148580174320; 36033573507128281591079739202367872785305466067517317346496015400743348770132; 32695870686573430595561571382247746919974160635984971976078105517288886644597; 32074941599919777597099261299001908066959258417542817568853240267900692830236; 64764448423572206664203331516407116868835993518546258295843992883887624614854; 55355423138050687488838845348598714361703804671909693691938669369041017488235; 23303082544698400224325142076370650674333364166214080860271485835001437615865; 52571622733997794305693512872334581556111837083924395804011235711611998242342; 35467854706546951023231076793434589598298785964844082749125301815327145778567; 13962560593924696244958762300377689965892350468547670172492920791979580219757; (-32875659496904333759170976651639414228303369641606813071030430167905142162848)];
    [33552643783428748950402828607752795289608997377287090122096841711038568943383; 48961350984589746204023233509239121202812045655202442846113442238752062992324; 4834960301723138160474522411898256324073625467085932032235703164976534657733; 9148527590008632914729096384144761703866342285245195434532395925739612923043; 32165590418796058887376136830848370021105047588600113444672157898849516595636; 26920390608784092557329411041454853285275488044538432687649179732140787490556; 19345867644443097286415786733158869459884416273944713840028969493365005221022; 69042966864684313839497347354261680600165815519675816711510924295618111204635; 45010086420676759807902889228718673494429468576259392480387762426454256678242; 2686182687966321204574392208786002787077269400279066564108926544096939637354; 51428174165712788291239482623890719610015010371334303486527541563849228935385; 28839291888644788279593885965058144364557470639803239531246428911563144833825; 29804302169171028160607045901068034397801796938049994357202977912873808588565; (-43491621965010781484224734668646355202397862795148101769371904611504553255965)];
    [42399442938455531623261734790075802706903319205440937767137281092036923765860; 39333490461136029727899638725695807748678920801781508139753544244281903045495; 42393319425956132919618567253209892114266662041560839247411035858402699731842; 19962520068637448528261112690128892911701359118402548910255597004799586641762; 25807435446911333955185549082133809598053447694585295900326470957274640774424; 36405144943769415364603060714937984365930739255236946926051128938874194575012; 6782597777727773755246445400217276148161503025245900669887861989010938306963; 110445789457215130032951048243110813701527791491114189247985707783582677048202; 50780000135337183989028057767447994528248558563009759497417779209041606582219; 18897022442066321356793965247988747774014927268798300369318395165419788835161; 53859763738053555687767923873277279555652694766466667150024892823319429883920; 32536246038747145281875645153628856159071691210193692581503484771759065319125; 39443523203213040034741566575897412676057031196432607652311558410363876439287; (-36591316681192507619378922715177258502782546445312019280431081799135658634879)];
    [34020654150955289924352052102572547756238841423233570276978675036237125736069; 38084804761088375484846448810418007531017181516754376621904739824085009807392; 19151726704046867170568043520047555970305851221928174294893360330024603258734; 25226022009508342980632929363141755804418930135468316808472138067903882035434; 22418341603847752589136659694500616967097341763924921728949949522823920401543; 29246362540786971583988446843646073756931540891826240875491214524625803322958; 242249086203165599357843343320809565199014614981832517236607367581623007704; 109400331172314823678061548944021007831545915928532200073898911481054651611089; 36515205067779415492108278500838764958679875368557134075550410243406149718921; 7415877101498738949658710415376843362414121900880199536860282380196142926909; 41547632164256119649552853007993651333955667816168851171441232735727692784640; 23396370481964923106597577388365573967697546433316385735205663295618549153735; 24414062030685659622687432249134187127929155390072513920699556612835613976298; (-27330596929090956306279524550784918794116755472372353351873146986319165838985)];
    [54274963091825622044577791478482498515145581213046587691569496957317047301087; 27285522798141530128504086038099622016723351071236115824010547114802360418886; 576213238187547696707878343767788633070895280073657418913943577888286565150; 20240968062613207715604358694167155516564796296869665655547433148441869598510; 19644995515104116213071648520032943288472546722241507707371807986913282277281; 28317904012063881115031837939936544352662172992363488024429690636347825020635; 23070279679882760982595262521712193160456284264584854918244493124260567983829; 96513862358802067813830705648070781453174184261818668856981978910258436127726; 19107667604385442667890095452482737787917664901347524431354699393591669640751; 195517786309878661548408743225699029612007030567439157875547355098096551051; 20872861782570664879771121435003646738506151682508795181158124834177898670423; 12242847041078585497800308968802227608839951731663293500618542495252894044718; 19567378226468865601176201874451767947477070983348001726250630364514892890010; (-9837061405180140432921097268765589786997865018940135715400600798319026841327)]],
   [[37942412147879734959686621287259586646044807806439978247498433186416958076212; 40770361754437038489696745253329122740022398239053503446707608099886984844633; 51545211316372519651695840105793674139259423880605908525068889175000230225699; 50880360446414723631305914725915711581393811064621409745237996169482334812630; 5768362739952270124990542274947587094490073701600477097714730562383487002645; 12859250735895212419556929037411249631306644726997624188779301131248412366699; 33463865543757919722047365638066003539710065764773757835388263752008531454371; 114897535788891551894716940649650536676868062647009669177502274865082078446542; 41213685045048410979822495317232248454629336147677050223739546676897096324768; 5135609493511213788269537251398248865947085301974845356315059297704465372763; 12119196042237848185080194673497866881865642153814850592374633391339821596894; 26406825388249378445350900189492873344078295492513639391379813269093363338954; 7942365219667388299461484766421006693860132523980905789490632181534233882437; (-8534330973203380255585616284260269177483117518560112334272953014448655109537)];
    [17231006463279304495808406004880729304960913826842545830265243222417068568757; 19280465835015707631588249295317898303942493984599822014052743382308408738123; 14005886326962837425935705994625844839509499533721269019548035914306092683279; 24865716631972207508247899458932925988870515226781108540358904572901221610085; 19855114752029079880990884546067401522234959338183389945865109478461940409359; 28710465603240531540401448475924724970449242630062565693697303233882226096170; 36336137692193290259824379737197776909915733396284278825818881103761921976917; 107014232426519834037804180503379830518394824405838669665125908063296099488292; 47279082496450026898395263572106165657605840310856571748270641842905924188936; 4803237976918770971319936784925592123071069335137170178570479628101112554525; 5849228425066242455055178551441556682725459804462120926317073564155847726079; 30293104696552544234744322750509888907654260692657143743004930587540737101149; 1740845915491653078315926249938304426729641455610452814094088660904254968269; (-1947902478545974244567899511225068203517064605436248817662683661873549427368)];
    [39092909358370372654020524663752406591495431486669946290258989674569902550026; 37050683729065266636842675039950838965254845010575540488076761681884382474469; 20630280759213702412231441574861208042421032817843836933396928416678989476067; 5128287876887000139087128462880580944973829236633042973077659658949103955118; 14132386338943060610107857459686288422316064624636181823036055280897112436002; 6420755774659757317968135530107596922153041182251278156254418565108058896723; 36536951042287650376601570919766254622650221672346298842051197528169891303258; 23025538586785448659464915214739081350229449485770218859096541863948919480958; 46846967836249428090060179015268976023449625570928098462104878097608342083631; 5035837938333225003048999628221005143432901444956906409008797800918469852147; 51398150198387455909661908389169034306530024139612626909367918868174687779883; 30016236069853732076016646023829936267387894410777866582392663292119888112778; 34705362691494315878022883844659313484306683114863613677564893165525768941455; (-32892343851858547406804630089992292533559249076263514977034511528154286159123)];
    [15070675337805841565478348519275854649061840390095812435576448332196826360456; 18999462048279945575457515766054075398079717893385245098240709885855065273590; 51990676099600580074420704010823109994887674579205361229338703081206643730697; 26396545259142842042271303183872932882168108510137118620922836947068560026471; 40910810617016716002280902392968883230510006919582922954411867431904096235727; 23710655431352662158060030896229839225265528146650650069546554287469840500466; 3462942643521822764948502002695605899087028359385818236287413635890814383082; 100142363894691874351728038946828156556247655492194348784313845001228482982707; 29484488846219282400871054220489533683321483392428231640589151733473618908474; 36737927742233996957455688865312054827298983744385954339853017074756008921505; 46816179136074233639645690886489727162257324673197843744801956354654017324978; 18891582923799781036278853843787595534359034059283142353181063924045632814508; 12186522256633694453934989653482200720031864834760495196837360280615512189534; (-15363436735618814763627100572223666091661506951163720526909445730588257103846)];
    [55883912999791610874099966987147290610183948615152237875979579790630856352726; 12787813360355090873089222731288484058890848842071756283908784376987452902533; 34963569552032527042219221940127048835847702582414779516354651349618028423952; 3922983972973411010756873977422590170605152148802228574933819223926076255216; 50960148044677774649989449388578614545438349058060192002930428723268953664539; 6234960617805270250547554297976805774613546472843718420344440977650488806989; 47202181192134488799494950883095228562035303826514899406365267189399062523306; 20049284353575321203046417842565167681082656405197974371510176208658909058690; 42488930661450525177514582484778540416521526351597165871540861566692673918628; 30774963855955083287146680612974728873052601776569362225049980361433453005500; 15996578492645247607770227448451565709590646475645412486575777373650925240586; 27223912923194447834342784981843005590468459444205916735291436090867846360746; 15440629954351525108276622746961031854429611426211853055604792691725825129503; (-3533251045310512540244831584381511101572731292477963391975812632583933064504)]]).
Definition wit17 : list (list Z) * list (list Z) * list (list Z) :=
  ([[37215819195597225906733077543471374188317177722219007369409545129793948129206; 12343382937378638492876912995715941402603942891818659128953974676017211541848; 10474730101540540528579615565553513205864690496273960583548899967325826111948];
    [40698236467754804752927967690878316375864949857139230782390631914444160458649; 21462227994333010079640743464907507252773971850967414496045523763459824271699; 11454888050908187447267645238656954826945238134794238480037025950374186960579];
    [2915004386611009774464281449902065130175623322621212791459082467699161762655; 11504835612507416613076942631593775987745504732194294783032215535987503427445; 820454442614267081327197852896013005422501315567544020767715056169267465030];
    [2872680352197906790747745629649296068697748075273924431175921359386404703684; 9947146722049124180127580871226417099820519651966791145723551468638080942463; 808541958975104960649366308925340642221209582707414299978533452491477016364];
    [8237875912050092674154714788721716001429763260327213398444076588796217224044; 11732994237437168406393544324219536838695323867073139665498603405371201146174; 2318624946429104051532507464903805851700235177343260201011942191793415273125];
    [5434410436915788244326221688949147116591822635290168132983935486130426286820; 3458160884425512024462842577343328911396642521826470000537236312794633807724; 1529564142831557317892485456219277315442032895984716498823844679590438723767];
    [39736252257435610188216262517453177836697307541656116561220929529680062535844; 23657026270002934371601803528765430207048029019487155538343127791662079212913; 11184128863475622074246524860254028420757340583700228950754109700445186506314];
    [5907312027531315753173820853566290383433239327337944104534623466390607639496; 854337803825723629501237768752547059792552525094820051323934131203448995562; 1662666587795952662631173222671280784198443669762797806418256916337185146276]],
   [[43257177485963219795473619209211102129326623172848454308219645778053046059400; 28725362628639569638299750482386987410574500918275340685442582601975227050030; 44694018377832719635888034623112983027380536822292943520340551268900610855954; 53941711437085428763506228781713211029522378023155250963800211459838732885978; 63502153253740346614555943353946314227818213144602046164507073793157842541; 2824513688566837065625364664429660926922283792899826221167428201177447973852; 3397069684964716372397760644721769864972725814234996265866564594368535317009; 81452991000409542814885419437574754761652547599692395442875589013050603943528; 10939206278995718720393066224892176704744623105614871380580153621582333723855; 49021766914280150468549653966761607024100103681549490864214995263512745191; 13265528394079118422512013824584917213482273723671940545552747808849111806535; 7009072587897286446897584185898029318119828828088433074754868866983798476510; 9911373392904248506446870570414328874873525981687293512139962998882698389414; (-6581746923996851363208537931457630338478655774348331666436753981621651668735)];
    [25104480012283384794122617066267477351136663399061616348811184563607033648424; 26532494424347655020757306391851298890881886080628047709429741376429963617790; 15137556302359430932221598523474434036139311342357113546039313889243734793619; 41753808212021902743004776825766858283424279199566339530772194217815637910769; 37148398709840268232644785143239540009099295899207523129038519603710309453780; 6344726628961823619003689053712018577683803804483049271256170975262844363290; 43824024120094003856207547986544219797648575690079833117769415042271083312358; 85380017409086648607390827506656799392740207260613566885381499400211189950588; 32994310731646996211679927370681547165429596912045074148927936386567571011608; 9712856564150844918735198098388464237743589252351546058168439213324310622388; 17330112664472709477735148774106324426506707468488420416427607459065630733661; 21140429479768724127377482108242894557896735548784983111795220365713305263671; 7514562866280278494058229028603724329197701356245153723672859888812150475221; (-7942012630950197936315845278512222171456537227468924039907389952489119328651)];
    [14261193102427984812343991013294505465111572298989384813880738230123360681467; 40382347136863815895035877978461159372599765612083907993477560360597463517013; 5332952692156217622514663890507932962903523790323396650360328980483544700316; 24231993500629043042575122386856778392066203464350003416417822034797164041892; 27357854723326651517598589167594071839262924499192824862624434170671247858525; 5860375936180559594297995280890254924729276449450978821079245919859031786205; 39987758777585342806076285255704359129131318064292410283265113835987820462856; 61247710477192968621426376266379594050468806947711578985846562528823735696930; 2612478924669199024817604843851368331047847365112923508758064062291611272642; 2520001944163299852094121839806073303708772608258151150751658472209075586642; 48739553454605163785405830263069359689986949623785643279009443855935592938816; 1673892415075595564739996265205015519922040186637005836677747965544544546206; 12005728338101894582890931062585848070590644548885746969383153422052807635676; (-33995717321685570333783818709353463372462607868030642802264393117871306693364)];
    [39926347492462236539229475660998485629917803489723337994035379335677049849855; 17013676445343910141824914826515680784673059355588886017582549155364570513454; 27334156060989828169397086538043778987996685703309679578365062108038933685543; 13765556522188989328734525124435776197978815505659878208172162068226657928951; 43374120884420073762228520275803678722774800454943391028460983097456423919818; 8919468016177118091455301783530891474261431093921857660936747674609040658939; 16468080765905711807712769418068441639616858026814641624120356526478999593172; 64813861937867313168396459926633594174711090974434668565362174104116478714252; 19763317708661291607158073747581621395494366094633111865652102076587091495578; 20477996330700905757694833732704929593224250679286353202500513584055873274204; 17175040836835600195574359538882490691880168608644189965683631839356565521791; 12662941429640910256242562745489498264804985032031333614049197124754218249451; 11844274564271976990584029633533516315164451296278787625851107121270413887601; (-5047159778499258821572292954428041461432392279756780744118037757729145235529)];
    [23180253138777485114772102616698097681353112686034004355368373435907497680048; 8637258431326896641072663274969855823140890140948098081048707512796911008602; 35638017879603901761290757060515787374908166392327420543874555806360772461112; 38538738602345694879436729004477145490320158394819572535719806964191315132282; 55318838696157562236129980069649007792302142420974389182124581527156921582401; 3757902986111977743353733214582877443703588627700999722239827564921523234969; 37006519099808085350503752062184487337705830773605664249262366806887837658947; 67537769955654280629999577397847125018453409903356876591071626218757411331116; 55062766069177673777982386643917122036371274649853483658589065010717011753215; 34051613983613123283091594716741993122819154564762306397923889227750183590653; 10124389972298054929447275250771691055782523995377738100326709481014520983968; 35280340677944089222647386704802979043819330916848818228636682087932903614993; 4053574367288249890604323390405618169053707985704324640032343138703595813822; (-1510413590880980772480222949304724578673250325428826292662684782561952222203)];
    [55664308494835775856185723610105448595645239271756121800441185356283518381113; 24605501900736357215531973953896516549194826234386747871225908472723599889737; 48861390478114220739570607768103131427967765622251783414744104810461752388932; 22374641622808186488070551156571587802662899411990774050630729411520959463884; 48086027666356189735451443633513703440374699357874203274199687101327826271304; 1907758111844597511075520860662005048670846212511558098725651198810540565538; 12862194190534093716066829495019566460678741022268213095903097608360526997942; 37739425247348656720864123580379694938616626132661412843108240139392365927992; 50665823552606916642282070439811816681231512900044376414226078418335445065393; 40582222668628492728266721591199930939934575737656698813406506926765722442315; 40972478571013474079598405043145361588215675386092261707859359490828543990852; 32463089729616098062310742533949749062066662733409164132715745919988654349387; 39393100202219026945616572931948212374059572224423985356001082988424703319967; (-17413079010790605408280034338375404298614815960459984676124047631385885072227)];
    [4024908508817066770060371964586666357271338932233580630221226449897808710343; 12289168685784047824301370807824389053540767440464242302468222694281755949638; 57022242365572750067403963384169651367727963861024081380826266877027209743103; 53729739114448396846395164150380349707779789737809422105738404839730167913315; 34904992910829199329629094967672760270279956840663321830507951699575257925366; 5434750646904760453740992565017997813433438620656891360914564347018790231795; 46567682233128645076534620547339018017996754983264987304555444094851402803101; 95209724442715319063605347367071333498234247940852184382262761899863080327901; 949924807002437884893959331121166888589295218397323194586057447281282790398; 34378185567593502386886110300270714597170515522177078461133844180507614304700; 30206573929594699294098760329168044234973475623861759394493204743671813442766; 608644882957235754581465649051917255436839451861352634540102479762730754076; 2099948230181107168543140213811356623637833395634129172137944502731148990501; (-6411727863025124982483293053102868038964066879897492737175707176126566036911)]],
   [[54516917620078961420673783705678923776679613142755615251754788107435261001726; 1473028836296644744766105767035670826571860886865560306098170332602170407925; 45176142403703831080257987746848876121634620056363020314547604554630396458329; 279809935394572757016761992202575717537559782757627485081651320183241546680; 12531632944656867870539658842910061520386168115936200495056074981123537813885; 2608531687827685935728511091602164945162987791553965709528357850994683688291; 11626354784765232745359795792547564482252274494154826998944134464578584731257; 4597017230873705951747748621309834782285652624501233297257877433584823226096; 40132504417202917793683762207557407079366257823867970227581383136255636471269; 9778402621244330084544900508647031293412848346030473845636515317671525757904; 25251535159611134502067163600405139325386540392393462200237262430449706175504; 25714081023811528747609173334293374228395744321828839766994120973705128311259; 23777718687770263831366584745701929287120381221141377199993920110431164984263; (-642465987026661329263803744853912785062274658357444971002374406796705013461)];
    [10643053031046901577316915265991009723287046285403078869509160086835661246719; 5266756857958965790207505951030385887811027434194432324856656452622884706038; 18552339887212713666541816214570485572020404351101267954026205577684249981560; 51335014790227348431675980037288844634760102229897383748222287628442420468284; 33327358393676463496179771175556667285385004865740533393510485614483218766860; 37477758055032722398711318826206863863192544282820875414828406982405561985; 52822341871112682514009817457648850864468434411739747478150204215793373489927; 54146602325533214425639650058707366833539142843208577545397857761858632526826; 55743684268081564716512328865556159059743958102814034799041096460782837800525; 10679494333938975825962635772460447374771930155152289244381675403063657690175; 14775018506463749829637954960986181713364600514639265439484280036798968785299; 35716625081109746169642452260404964242289055725550836575207935451155837462724; 2716097559595908279494298251797654132995710779824591954741298155485941902957; (-1344071612455383023829752198360304323277596311781546121951652520447529469456)];
    [885653457851086759173454333350358470114919007890473533171075804016312509788; 5173873731015455898843145409981988213048728441860738710127269478567836908624; 54774363598244239833320382405482183453413211735089220434493798284604044533322; 1956516694150324722805828111755623557419078901903789588498177940383495397811; 44273074228510826996451245861575655161983544059239659669974957770204149912591; 479112657584184377462088135525366332339715887832581397808721655058388780297; 423301514324557816914858552954320624885809100080694702400698483339548446272; 4372009389787148107406850850679936809970286578815241964090115968569855576573; 49525589146428964987966245432578525465554085099967168269986013199305006288707; 41885926428607817470829849979585555750318570129218622060325332640564306598655; 47394755248924684874916355960437425635205324656970721255209951489556670199217; 31732507865055726050309113989912210088827352785231211698311439999275243414232; 725012030557416456570357340880024844457533019149265503472683155980363638325; (-4235427148529129536185970547573701547036452861688727870450346978035282442653)];
    [21621513170862521099530913770180462793295136851291509893158492413150529922623; 11869068989273831198675046236996322457470416332996814632944901924274302665087; 13497529364141433174900890248328020871615747039537775956563953866936928709422; 13548111145934911226926157986548780528813387943047261453331392671519585578; 43480209999228826733528501612672011178791829763193682877901356857261685379315; 462362663301267844278102788769999845747504919894884316859530316424666211489; 33965878951534430771318993587227032389422063087170641412618100548223478765003; 634203424335137317411554078140307200422067651743241160212514455222043402809; 39592257999064811782688088799743927103049880231296331911799373271636292970008; 10136709944335218467051950121856329982370575736448757716476438523008483265178; 29982680635087393558627611364343990307176082723655906921337402990324756669892; 25367929185779900732492643486134481591556009184412289005838279744467700248852; 11197153942367751082022937332642998930650331560684964703294115562586348473077; (-6146646239569396687795106308179080739869071321398389408672556531867932663446)];
    [19600378045657556875289925355351315605889147312093060723319760395067636662161; 55917308400816340940408390548223513438205960913829150880571547126642528177519; 44180236100442001875500156804149117867086874875031438826310422185350791114929; 8074641970396782730390837374901446981921175019401524419320160981819901174800; 3565495308244916836926945796582207629738205136183789472326716895440654026374; 2433237012995221973307420799099151126364591423329005066959816005391995106055; 36955083826618279556926424057292648952440873142679309141847851658817044693938; 19372983090858339739042528885960225740206240593374015626246285161097859662938; 32223681440167950135646430079521920169276141845639134123748686718484664241822; 2720814963627298066690081080422628724907080105040675248553514189598362145576; 17281303826461012673212281496777043689286322593972632665745086714046427731393; 20646664529682019239757347630801795791724242085519362028971354964735193077533; 5850487548010238244517328441449850343022954184197804275203635011551635407651; (-16690673810227991623709695120567079872805885783260270169831921973067991197299)]]).
Definition wit18 : list (list Z) * list (list Z) * list (list Z) :=
  ([[39899686957124757334732424715163183046072775688984097252014070424513489767468; 18930488104508897363371162221969433327800811261260002194451085826335966940959; 11230129043116237816403737707708382294393800492278626948350153926462939059367];
    [42888383545415961445003706756040338185852554011979040257760224530638009208792; 18692658770249243961455629856748343452221423706316590001663218031324421766952; 12071324824759786495181126478669844827941535511862067090121653780244012191949];
    [48949607464471832142357253350026807543294449539853226846014425376920568515166; 7012029675494844443325969975379580023469278011552897964125852360385074542426; 13777311311404775532053998518224631347398411471099024379160307584758831129758];
    [39797265132532711068835781655528511620644340839990088011558649518147696208275; 34339700190482571504711771683469524746131739968208482217314740876450446083402; 11201301490954335293682807908634444725209547513065446171221330479340569337004];
    [56120550098121966777374350460004623856300026819604569410710096518549984953865; 6955336565375365152872908696518841179574962055475421787513780957139652887939; 15795638202621016802758430926901503619212747344455631605381590133490257629575];
    [51359741164709013137537325328865544176086905513427271527806499812047889663896; 18900068469688947232647592028560919812430092818733617642409064148604015630976; 14455665316886356466735391716351911748277415156262254748230448765996810396086];
    [45243886705483705792259106615965371325206280358480067714185388577605358557770; 7781881094351620816120700192628340231961660214728937774549482603800230458558; 12734302568857232268259997427030708461364422801734185711740046080675931636217];
    [15549426061611026436610324367399796195411910373693257691366502967077204787838; 592425439549147039884391462072674934460474980610221850680311076863248828638; 4376527099220883314116383768984257071948493899994673256153358601454735100641]],
   [[28658754282729672882100872941658788065524989174348966960536451895469243658010; 37762667404419404728133635288193148665768828242655041491126540255911857634224; 29673250737935984876651153488331233281299239806463904398718462257249327445480; 6635596992214682860255427918108932399723036852775340214288131193705887130109; 55650283308086307161021958338398360181691956882983378255339916670101978661412; 54006200240220776241510253779809125140986155757672925070653507012811127186001; 49330818722955611283566976248368051701866763401774913118628935768465156001930; 98502773441453253828508006141856924196310815132968269673843809859188948198030; 42948859919163312324132655516466762019367431172672523919170601869288242402854; 28522238800849754718442197567567469137833731859525169748504336893758526895394; 25977032570150322284370804850067126900392717076519473856621454412852651215931; 27518603184113688394685131103070425864413953750971402052495719993427620999411; 12858726331409596468948284685903747911008286679326035895342590614921846298818; (-16943507066184331331154727974627622506642089443390507365078014362506097295388)];
    [13645562336188220894142267268813765882905214067731667310383708058132943056560; 29750974929275675451459270101115647797441628033861298062386645364229017090049; 44467681554907227851619222611729597574118770547180556476480373100651320747012; 9702258970521856134661938564492890739038227833034315000572829931649834212302; 18377423611811610848966292744447411999945995084098366056311857865711231858583; 36472037652981145904939381840724636015856763060287807195292469074873440964477; 20076213812066064917543648483033419664997992997842339274751002120486896673612; 86637906429321888313905799289572507752116389814834040328146097260470218373892; 13825240244883305353335168798438270362590093932669047724890733105239339413885; 14114978429913553853870239266202066690536279264357976052752309585522969442939; 7050398032171557729396827863257382926561460887432094919489843778645030758766; 8858239798217070248214316930631855786462206142399812728238432258962509690541; 1661713619239738902432749005966286273588303558323231105803760273801791289147; (-3622980058104913356424281205267031339956357365064876713445302481243549818920)];
    [43989363110060799496526592551177644111553271892145685238033036627888703862877; 45195762653922475880384045212304509155155597033569070505522741599100348519449; 55797988728289993986798976092233798843938798941269827870522180752271183097647; 4619627855348891644582720035783209260609522498984144077841678554119712129637; 19730614488129189819211204528444934911943474906005317659792506208623309685309; 28734163988279403673279669069576907065829020575181842698593278583967046337978; 13883631920576597385186781698680146860009557745350604982892999325163528798100; 56605008436446460364857046848883571673614855314376871331364587694493779053980; 5289144121839227889843050565689882461692598495799530706401570477331005820212; 19015609996543229717161313631658118413563309535542119877733433665203733165339; 57021977766689102013333920597489480654147111272149730453841006263390031731686; 3388910870892254287580055289467515882015078294182864696936978503117868251726; 43325247894816185247216941213670748054876120769786738779285752436714481686895; (-44513434210840528791234774052952894064047732229586737450623647133996682254029)];
    [15923635207242447283651154733203122851582241821046171908856292618991427861642; 25288602186993390659352637898119140901542996921902325321249844823428407931528; 25468369216524429380518176038736131113655477166500548493054065999699184086913; 14892349773183489705847164262487455193217041243053261456834206414522900013916; 53757924899703758037506137377894178332665185012296799862247881611068367346735; 43651089040287122142068539753778057861206517572755111593832405925547078834504; 34432879258481781376864681133289232320032199111829215473567309467537141515527; 116330129415496044175960240432577514396007161747634138096747420215705113559997; 1378820588737149260670121445975501427619525393025769955283144108728476731520; 23648017557638476250838568518673746080409750423048814150703761114775725416715; 7839560513405054855697386575292536076434201128736986517816501164764161328158; 883451079142936158134066356426776698420923692842074999293948177764769151658; 2156180143614408285495790348550518239279591009545409910975567650241003712251; (-3424267209447185387333983315751190973181710429645230707538238097428077569656)];
    [22408481768422265362339970600335405760652849018111726963546637612611151234124; 48831474560618903999831625155328489652709331475404229119141303167554858132130; 12708622480383781543776923537028034956529691009645913616720722392093257478634; 5390856525326627524756955975729153451503314576823106683674636149628433956672; 56652469799485874483457972899379217157927560082249096490029326992103750701735; 24424303539726735901490495744071492461789260183780551243238884848200943240053; 6320929733891123477785972179654086990314360770445502168264221475743435739381; 53755879901553171510628791278028731839833339383040392108122294314234707062231; 35113170597937701456045150431279571839711794023131912909585722091816788728109; 12435648341872803990296922479476754090527662777856446413933982452928871844669; 34888578097657595517584794828710471573809487673591499698908956236262726375760; 22498045583501006994608187183522093458852373736896489330353220831354509602515; 13503514296650011588789312208418773479158726114850236983626026101645936338248; (-29426202170690185564996238362756802400715723956323873618721196697913237682411)];
    [12422256006737380527558731321173705463447924358937633009394026486929508609174; 36268785219956563235629337438422198510127143007390415188287146863381543926088; 46687692120609387920572698596364714355597996675901516611307266976987665388891; 7586264605522915623695318059298130859212765743560316773231762838565259093077; 57137931132446113129684215044772218260523541066859644568037416820164403393078; 47162541770474965555820300414040647033334737828732982531557328052116828007208; 50557021988616349951797363196281926999538597833563207874859299303375475125334; 92923043706223368880457212752817018116615588550580824825161613696913988400914; 9733863496930652940653982720578896895842579979766579527918550963038014871894; 46076345192336840339649648189036754488516067169495081359029785611869924315596; 31620398132475756854999257252628306028040700610302902128600434282328844785921; 6236773863718944076312866560770699353273784971337133686476835272990222817701; 6784516683718117850246038710034779475479136982235631931354250241085177655587; (-19808493585185092862324212537303730059669478105077870324421311294837471556021)];
    [8902490268397843803802527325209899535197727256334443541236481446389959573425; 3852752280237905117009160546534950954901072829321467116969506308368943816516; 8765656199737988781963768598508621828514778821007118033427251528764105623757; 4205484424984824021816777789407644655954648503297050701205959105855044914093; 24528345059457184012122132295154561980138605325966947429995836389811683314667; 35029212476005696011580506197354902534453596664532074699080652720802094411745; 27409203635155634947984811709340539056183310457549411275207760325816605119703; 63510984357035210596956011918081052937960196777803709264275274981721340638893; 54234770585506611387636887012759536517033524302418855247318840600663282621436; 3713674074903096892144015495854288373784852710097401314219722755577502859167; 1682140085762469015536174640475166766050397603328703461486402869636725343119; 34749819514023374572380398197357270471498597693645405132121876440621917353689; 258657320067703575539580089316430143721865986328664763748404395915944183829; (-111939755017605380333938395964937007813592981235851554147132957234975370288)]],
   [[6986702789447486299255325584840115837692128257688346505060373904960228934887; 10292962987431499209806177702562716293400171669371976579676428374942177156958; 27965629688713977786884586664638592965467551221624847822029532300764302566847; 1368907556655037916990261008343356525922216612762786750202306280020600870122; 45469616565106824495626644070871656755669332772603055012392041308471107866665; 256385392657630943857906487680204566147229796341538287029661308278831095459; 46638053758384757443946386965965888185325712408794136197425787539433255189239; 2810143828410962940616950420168910960990396370324768738592589742025929622858; 42858319159037770031469650242915135236815070507148913636755951072093257392622; 21963269983694178907445716329966131861793213730003256133446655794510673801517; 17503986876392846708742057406233063790201781550978207190362509007706805299817; 27460591044686184824052870848769988060640760947058287134888219928534100570757; 2112323125720650066491561050073885840043608854263449507050014873192690094611; (-3111920516123406376696198809344527601664702294275293821327006571730641808760)];
    [17044116135596505028737179346678509469911041975350358568755082202036985870107; 42455180672755106883951150046299420740744375609364441069727100382315725009513; 38320593694639533888460614226775109277278128264221073521977658866299274790398; 843132137775471526093370666535822223575535346848723363618713161872477683679; 16982017285558013744528444253301036255164032111146119074695559762864759965151; 1829919258879594697273016998707142112407165479874432674645165513786917264537; 27759642875753549768045432119425743732354224283206960767580143345903686139421; 5157292718826210838204537761696753528220827623684490348475301636025514575596; 57505875284915001275802278213129084770431701350687192718764404292073928218791; 11240163102705187788452147961572839613768463111224069472643915472430386981543; 36557468209576577567853322530869880904520896179745327572446692900522049994701; 36845712917623238410526906433222739329631970137859550806234109254751722537896; 10762215931873832092754111050407390632759736407287161739983858593373552877858; (-26807598481017751000046213873998136060368046498567396124613134593986483068301)];
    [35699121746649840704418034923098908337241927255079104052577773022334802256857; 42797427239513741210424919482406830061459306844682386746523008648281197056610; 57599428979889275190368019236766858722035987703144162947363441946770113908813; 5017646658889049538807456213693392620543086500774636560292766890835036239164; 50778022751213423832448826077952681902432993523961535882940538130352919831554; 31132392166483296423851615360044254084183303449558673329008681138708534902635; 29945585246379367638094950067646412263784945578949148786209422133611045402639; 61146946117065735031977842882947412108846517686835419536219429292553312098789; 535293312009227473307115430714683808514935610799141732950804860526430060678; 50517874484557654731953263494113509817962627025338404153377109569606667221476; 51074638389982246353866299345529777107031998153637654955305888187539370742689; 342978236628797919563856651828474481718654394324191588382785600762233124949; 31492993106173140466022694891824647885311364044638955316125059443366573234842; (-37754964690201040453894296499403647384902711822803591308294835964339554061803)];
    [18325906839195889578789899993068057797851367534956078601965911799634346506748; 22616100759195716946399271549482498388221224000801885013458519667084159593279; 35871013687561820696630509237591169830466284443029984529775424020495645195823; 22012337835448938823755757643570793943824906971933393293608414357935756673674; 3392047640148777095594484910178129568270442792736665713206151154201433366724; 31636354268857920875546709083085680214525293492974588771858695040840773183424; 37014026970532077382385473309162903264393569469667147888974004861031550683516; 106427101252292658442370508446477294716026352476586040026095130636076627534577; 23064255458384949653030641241282125739545850876749579972682225806536563033219; 2101632125822738828737637335308236111326127194993633237375673136330742803517; 25417078571245054110749468176930913664439150682526963203159519137662352990849; 14777949749793687227343741373630661910692361095926664037368228697816627252104; 8045299417070178297538368944876690149781225734965956651821557483079853734219; (-9928747529436940417404409681642409902673436930587955714419665334125257081311)];
    [13048931295659041501322229995873503013594860839855087692129062737859493222938; 55356056475575935623708835593923975823491973524220303008437518991732678646755; 22446456428427513072545395116277282254560229246767227489189454836232909424296; 5800722030165360239939011022913441389097340842450729781398795275504931869192; 39684593108427761962212377692024892808045904479961548165708932093200072280080; 8834593397858070214004341175354983679083562222230533880028095757168830848789; 29823632542475903278781115064105220102940966535686929244185253911057202173889; 28952720297692899040070985645550021970077011215313029887560249825325383215160; 8397489650987866342161549748350870836602902593448189812496698005925954251170; 15385826371308416965507436777100409111443574570006250548650088361355105827990; 17238136680000248889666982575747610553485675233194320676519477256967162855783; 5380519666486603658402541471180873342325541003010320359288380427169116792283; 3885226748806469509837220887598019456580882691589928388958988829630016037571; (-16481873224276713999543583608842240133871209587758124258875457813765670362514)]]).
Definition wit19 : list (list Z) * list (list Z) * list (list Z) :=
  ([[49963983796323580263993243533601747270429038215005018188137038993379644188496; 12476454695760429500323727682486920616232372350130517923365981353829570742006; 14062816736979145221838349510665742553618693674770534437185119616731811151765];
    [35273753037474837238260826834011462794680916311289143853807927770956436229867; 12221826901512782658232046982317823943100683876674484172833917821706357053809; 9928117954196639376547299607975017933860349630659226424225327360056484163656];
    [43297802167190775361431300060327755513534902958440202744466964753235697703905; 34563771718926319779632180533364023740209264649061424453855509960529403411059; 12186559411941552376809079276592175791145342305235861315252632132311436491479];
    [22064033465043547123973209411922987515510029466669558679095202723401857606984; 3922014964581807348946397019145077383582914279598468345072729941628406866484; 6210122482673476794777000830978998113533160036958824711973239212764233326430];
    [18213381764469942747889979415053147912041961373362345660054506358121514795121; 2908193590587600258476167377442364830710365623286312829737070201775649200893; 5126321611152735517389775739229365616523637871463023069574955334501940991271];
    [2581529753133646717926548316500774069740278939966992820344367378591548905283; 5162122552377727846678610271894237403309270883794950097257346784492652203253; 726594980243524059381229929070179896143426364146349038678616182931048943110];
    [7395556553591026128055411533334483534876977154959967569790706935405583914819; 8562874571682236680355644269698041851445152040353693686474533213437917239609; 2081546517689174450784356455768300545496089340443913085495643551164900757640];
    [17751709787339100870783805411827834855736359370306813476521514323182264045514; 26230108468188404768416386107945000385896663659595725148539172548513829110269; 4996379842829057996639329249935334249501388146867543279881008141001211924239]],
   [[17804552021948501003473808784482696744755975256217624996860777200020497779224; 39742389178857970929201271717901335006610649140129837785033274071125207857467; 9191369416167243459651975461439085405470789490360083811894758747703151585833; 2941040429970162967771278087711775645777812463816673365708260551409969612039; 48454579888975458083450515050615305586025306770029998884459172831599412992564; 52927501502229151951082476002350788243029651453180315338742875756200368038089; 41781827660473666647517992570569977679084188024759555033170425558148723315491; 80821451323720173919501209455036405121272208617258024551183099015269479134142; 7687629777793259937650454118147225658028978088763352141190311586233114927457; 7692476171700932407431763242479382272559347327519752873172945033360300236895; 39263210472808214623798539589176220180554517279669915072564414083896261406730; 4925691477716647037295063130045920603715491484141396250114993011234054494845; 12074466883123488453917280644118924227482908791679453836422611003358350787850; (-26951993029915608877840435803345744941508812044730392038379264969168569018160)];
    [42406938888586312473675833907047050136884689249372563307486214715428954114501; 47188165948159537758280531396210243679756058217979616039328425235565490027896; 36704325396401948257427095063108684395068553900839716638283637944549676806228; 4012888576666606912685873061971031945935696797651895023232033158358984770316; 40036167676930646709045204178100110012487315541825360697679865774773697477031; 37998829701575051898358779815283647387670876997844645268020464272059923120146; 25281017753290790073997252735369369113064770187149128039396786650125216248683; 67992517192522232395158409077788338389860145122971972939506773358808269351820; 9951381198702080040853025104827455233838545502069117906011540232912329259366; 25381708469345035886134091848738003636436362279318308345430805500013542350398; 21964664894327996690604356869524079437430689734626083581512633252248682977440; 6376143880334856488950878405198036203654955489732530751098331652694102110810; 16088390977608610582145879830645195348574196684900206711083028753251294961833; (-17902298142406100695361293085153449450134843858358899416658997846292702816047)];
    [27243750438325626901394393635433659784763126423439206380432702465090275200900; 8334724468222977727927796857102326960164746806583065065856770832763465282107; 15369028269726723322187298207778855520473213027800248042978512586024710953495; 9557910832444708141352458727661806558795115722883457358383776736783306609207; 57033250500857614691205821277966067603088706582549176685216605220485941436357; 45117948841074257812289283273167552670284144026575066026950842869971258072527; 891967872081563004763878408584275270297795484165327760945207004712787416574; 105857871484799310918355057749067313459037545076615740660579714545196330337303; 49378443793128121112917105413657721494466762138144634440226224423661620586308; 15139991773800779411811011800117824328314369616505622459172820928395361306443; 32970574764166556556612721867317600885109562882332356573800267283907586232708; 31638227490780519466058331436240919230525836655097274323046991969379626459368; 15514740542286284838547330009077216938559694452783413539415865554908499702522; (-4746449572303153720193841940541678821972950232642638420525069588035007814049)];
    [33192226700597567129190270688857890962967838402886539717180919662914653529398; 5072660758771087497504482738866921197967216200981954427535927106382746936911; 554392545177421466755798841872222605654683987336567155430728172756253462532; 6140347411422727839994566649335859903658279422732524886751735471783989871732; 37345217877412399830230447518301746982492384586897517149666142855571699035760; 7969067341478248854426676815205931158892408527126849174324811732057934086725; 35004709144937827700904796675263018951464305774866414993640906937754103236433; 42036466513937418369979387246681062121470744770571630876722578505776316895482; 48469693857998787489853235671127005614163875877296318420989610455111556303899; 357604919742509908073987071866868958040846659140431946862201398844250783129; 44732267845842995411861989861429120165613688332834078833958217719673379015966; 31055964564465795528508449252401704031135608502084678566799640680454863081471; 25645336999284035469533343535987129464512083043896248846880636042723460889025; (-3919293990583233703125239293193400210007227978738649521557306470295710705443)];
    [15381728401920917507382068687991809230545606058129028849690567983221372885245; 19429967153894018201925109237895058574269096609454797625528866734728059964324; 30606273599838234081252583111390649244497060660115070771004908345589138343503; 7481047947556250159408766143610498886737289927045385044694828200785945905729; 15680040320101461188020885522950400454556513524416412617240595248332521684501; 4850115362690532934895501184822224252924082786002138849817517705055773735896; 23225824867566469475219730382035355150733317028130739197682021150387105337736; 45210500578518856450029015277970228007714219303288206006572533027927294487149; 49323138982692207677487178599759276756742139345657081616891229394552875882725; 8289125919646349785317028998243235296145754103716941013919030199313567544622; 8037967961866242904302413719744317587998916930786914832583111901933593902074; 31602792065127242199945038118654631693092840010279764251678823890424353882249; 2135514453657922971871764289529356205824458923297624125291475084371858366007; (-2697549625571181098928078556719756037525985127689656728934393907104571851144)];
    [8998064247025388548715156834976237360380561803307427515066653227914324130739; 55095913371587289695109490714598414350709591539874218004648399969336475386840; 57521968009954564412946823058707525757040323519088698528471078324230029071373; 3466819166096696443508010484627354410993550327263739354337556763653849685913; 3607343980958141523363350679247497352034192019094732543645707238592619380800; 18577544738573057079351874573659990701732148925835443741118461898855800953180; 42805396787398732772640519815878219590397332700545607224423752328039721508173; 41130505969384628357867403584264882009102576675152343723467109677167519063056; 19427775471440999633528895868692749423819354282658553591945132209567615478434; 3584036291949123321055159762482069877804812561591950769026723064174616853334; 22153075436403558575464987910879550042414346581971818915061704461630042055985; 12447949606925378712473041584698628058240081560211131665872822163931118509865; 3442977795096554851623665924455713506046114190191722444858991901531522220046; (-21081646133127812025202540831597542873787156004119485402049103353433973816417)];
    [27531835895280592308108478914989633679052609083143703025386917874092532392021; 55158672890636899211646078797224456321544010509658114982139571230287299483895; 10095144709317798159925070306395623250009156704446135633580188310658294439297; 2028033571666846693707914948038345919062829192557523920319913041025367804865; 4758258764876682379275954092339750057828294080281343306328846251795975695781; 52678771274612077838001884123122482330182583576507662258115057601266653910031; 33436575099457641468002451723224993769580855133168860047119274371097328826439; 75727932436304455467739350635649472378521537708390807682450640270288123753592; 13061260263929354405821348147854343513234679814692460219799636051880952464687; 829682081257923994633623552950007868291618785802839909512936426596422697230; 26154035728700132087405489860616624164535414688580445221523739582150810157571; 8368735257792750831833077399322615591654278639507756780320554866802390555986; 12437267941613780624738087786781308726943387170896769344574326743464825418399; (-24917451805757531921713265046605454655915473189567870969391752683912221011172)]],
   [[22459022010406441880071998423128997707946874444377105141084471424789185546822; 53825991541922386254752026760877422413415158982488042561091950744726508263312; 29557115754554215986670377567157226412708660276637860399014100282752941459644; 13092465862864496729851227705414452570480379892589067806562119827105223577553; 41316715337898193410284032774809659576066804875314264219432911883026252282337; 52550726307748239443343810204361220243827538408587392588534499773402516465712; 48481206048472513426736528661278601773613191559745469551761248808187157013060; 118103409106989545710027810125665673586101245620367910692174964697535398263804; 37924356089571580229899484049638783613356135772346497825182004548475275429808; 21093028822329370615547861946319405754082736655381861738513505992566076382780; 11759599583343977423613655207652433163358144598676403820418811600273310822692; 24299255165473941255747820090161519048700356419486719691302937259188188122652; 4561781510558920754969945299003092727207919554651708871277356547228168935283; (-10932907625704704662319273755010018848629689378166049605381843629278397156577)];
    [36410947714736514685678444986951589358749307344893388745013989729585202274689; 43412077953637696023084925327019822207496974679371988611880127736118415232905; 47874044249069484353553961914208855770424864031274417641992227331780277608843; 8712299311400041351259898459374234759676937640190656449785680549561765503709; 11167360194673912013740410594644055088998215245925110109978661101033979498025; 50042060464652374720689012160710366132573836576684759572384325468997005602131; 42697206140050389997369206979433257520116912210512429940648243541519103565841; 100514695451294784392682821513850510970032822178061668801538443064468202611135; 56335917204102408883484940740211686148244946778899541061289240869610680542547; 9234252523234074073550254034636432950956872962219453233338075362287729853872; 21189360564262525371971941184779153245208343547470974487715225773210266709130; 36096086216739296800355633910897062397764657555513567664202018410981708954795; 13326034700571309252623454473583848388519488004132059020641770422342072303014; (-15888376808163753235049898081262178445812026821424910078349898165133210716537)];
    [16500068492966065029940089035493110962818486883169745913799238267083281214115; 23428262921037128435634015506312194949743083014841069563773867982356615469356; 14922094308010200894663589962067355447941137220752677366568007205550217492488; 22898923790348639182220578542649569822548161024768712581619502919096182889917; 39010019247564832636550088389516958400019658782705914295409663882522379665249; 32551593544360460094597983602249811461234970404273296910185520350333247855024; 14792524261038577771104510196219791916056322165802140427724006595188214213904; 110054416822812141566442346654664239500672532272696657793554096209464825221668; 33146470150110951192016088384382407970726489117440158597282961057127199694311; 10054420643130760719516905754516639494380975592684623395969242718508106857349; 24087924939554631741886498427449602952078521561953236928841656676972162172760; 21237922513700616443160900909083315086860613968981042883395469804286742821905; 6864932034199626704136312805141791987327551634098198185994753825162697372052; (-9747440303101890978712097805973006891155756807392455526687111280885854818609)];
    [52017698461574473160794941667109584858545935730947521527680867047974376073376; 7882353656296193450631397862206626290365575517687412797407255073835670659135; 27017738757240210289672934831941976580515280365786633462129968597357051657421; 4702432818438739792232221437183723863334033002586287560175110584892978924396; 37730220017286468435836117772182101814579629461350956063585900705114363719114; 9480500906625926039034835585032812745681557473602792634521726300582042600478; 43891703409049236729696409309728762701117366689668269779738322817525506764336; 27536797375492729304654820132095545517808066997209382213137488185568760844245; 19453903846840132697424303708713444248908880712559464631964245063776906952149; 17607165297639777014393845829327616182520246826544869046883527402746150811905; 10712481260046258146163182940240125234064349095564322601455932107757312061692; 12464690828829932309993848697357984534904507388650675335630108033030828509647; 9624813294771658877994490701055572173630057795657960049089710869654786758083; (-1458468646421448727125298582514182570638860335844381968520878508632381167180)];
    [38102973455857383083217578484408556833622354043481013391311736024976869900337; 1514172559578212496981391342935391411386520649276975744812625577312668741408; 49509058883681893791437589756674488291589172225576831859082648243700638902869; 46736197110903821216366089584463010199777196723136684716925486629024760708343; 22515947424188450574992601511682437897085313156965484868663250403683140255427; 1073156198703476129656105974513418535848798080736746867982249831441290842102; 37745770479817030024256727170637251661931107028675044138710703845554195879934; 61973426118428060842690922494585924191108303490035942208263540031391327591663; 4250820979047560568202389200243262706908042278975228904364344964866451687542; 19254223223511619384339150106828014213964045804207288205106029976809546046029; 30902933159164654495340504259351903532131133264208935029309394163939066172506; 2723626563063243503478517006435352064808709383537832831191314843392272625896; 20338067127513511149061768595214299831094855484576338182675283609828825550329; (-808213647552134021562224957803782355769216858275742097875657457988669661464)]]).
Definition wit20 : list (list Z) * list (list Z) * list (list Z) :=
  ([[1968866686843775686290887716911932262809511996620402674886445561697688625696; 996518453466217000083556677877864363920027635917350942264477169153637011200; 554155399407215282834523687619648943892697457073209189081678051508027298491];
    [15968905772686977983881806756779650653743482463472703992587842753827928007808; 15475514738174743623156484571152730446760644679538014269521234091330691283; 4494593471305811599625602802583814352298849419551553231980817050466716804195];
    [34590594255374857373180179778123599895271102493005008359346757988854788405633; 8857929497238633518615270207070057429227834670924340934914172122221982787224; 9735836714292050497979567638634166939109230465129645967299577372234998883520];
    [31793063369366392018526176788109382310630045962242405242932126548956172998482; 11945647793533973175937841883638266486788118266943724469907608580412347390088; 8948446254669198693820873522035882562467865253489297956199494859224887710287];
    [15134820430718574935150748969692766622996082019695631978330478718742822426441; 10336996850478641171748613563202298153867471541316616398010411751140926078459; 4259832581243131853429078359756703600331052493568106303042336505224378307587];
    [49620106764677144254357764836450285624785258286568784811493042268215721231542; 361901907145623540102254274471191804105532329947940744396836785742984307523; 13966029425226473524618441463181197548494619571328567283257177349734347786996];
    [1521814470643207344027360424501558815970488162307687589747651538275277540198; 15017689872849752562894486156730927405368165775800388184498010891772328291266; 428328495493449215794658576567252807638069769944474658682940010164701757981];
    [27610138471527652095047805863266559236671781287830322277167007153613044179337; 2981228202019844774382118775244332126838761918535884601703698980124338084770; 7771124075904467298528899314366380537706413282432738448369363609951219608412]],
   [[1209048020089982719844495683819082001893607537849579268870283236895088467617; 741055009305076071530405773629080554579552753436343301823658144874985568375; 19403587403253312006112690641273126784122884884195298014946512612172044504988; 25076610945368286341409840359671074623909432831422131076736266810672021222969; 48781840178705444132044366806797185443027280248726239657307906955769967866523; 39600607524762813746544327667780362316982510936817833026916318193067243609; 14227116336988209798953340377550222826134196793342061002298518687380824802954; 27109248459825483155323498043094583714066470614193650794292137467172362488979; 36928929856822248683058389830215269496543659230070187572855695577324018862221; 16349004596662963140501400408681487581444249457801392086270976042864176778147; 29378252775452132125931676165524058658904395364530941642361394343597923361534; 23661456175008452616900504489458281965405790897047009618479819742001001844429; 613508549432348226053526246254958836729409903004750364084678517639961781948; (-376034347895045512155771096023581558977918662241735701990162888770272093914)];
    [20435066071842063146581378892165353039114165203708236392170133643699333118441; 25096032457057142297061087371320999442435016091559114550411900694249942109649; 783861478125550363543607929112460232899007015173167598857165517073226368526; 795707632875133318531895065338771436409506903705412187886320108958672059247; 32733557719652021822784058710352700300532623274941173402983217553978831486880; 19381033153793547822278754190860957622692089513874739055025595129656770880; 21740226063422970395150534597010332063629844921682573742463264293574997655934; 1334417868604958870319133094929639914199265451642704138801951223687597040194; 12950385314506079625250721501551826209398282727922717502996916653138929341942; 443183556103684006237528831748858973573130119382116196952107693184077494962; 5099110212354474286997967379575750305515289325622243453439689116975364236790; 8297694402645944119034241239569580755129971644134067388967539310040974773980; 1799788824666748642898530024153866391299651221558959810483711582790081560347; (-2210296683205876424913557559100203837190089229096440633794443379701635108383)];
    [18133098019564239788358310742451132832366151394479185274106963769960092714259; 38140518344246930107172351602243012658971871703492240663739840305739181883166; 15787249038377743003145737169384514511205396377996398462644161401921618925535; 13448876952349858364768694263357164549612169392407781619201048614096080370018; 2976509160698819061380205192052709463245003907169837538665678934091769658103; 656344037853563128588400320826649292653643633745634477415349885855776569261; 44891899099172223693461443893868611920834867091020081839113627228277568507260; 31156052033324432001142586252033322386239854099623831912789019617417082354710; 10590902765108801905124634081227071472260809214929832173052775532990154100536; 811642517109385893220370817813977096756724791028395315649444097575074591381; 37262668732633054742537636576605995463791500878130580187838022506539484924153; 6785904238275743860355324000148409223777319730654867153110393344683374672523; 11670704433263367049499586349462897989121783785675141612007824830788727884936; (-24547747772989888398342842647219501595106632017909642621322676435949446909630)];
    [12973477867676315183581683991993526073084267881552928053738313760486206455539; 46130362034173035494937117665738112752894228577694162115209680882119673218488; 30782242095726563620044826093214484376271575468144206351727775448657363308564; 11933888697627068109061698071897179363544717020054384028312019953972188586731; 18215591262001942700844439811252309915897005757153576041526748872603127720592; 997500376154136822508185901106688139936492903551180390816178587108831879664; 41262899184226662024433132791255357742722564520570509893512602395213230667775; 38506949671364019031068367479617356584302061383023958808035363207917512728650; 32378312416272489741345662899870221910783647870916181652064651391281202937985; 9684888559088949635137142238054251864482419495807939763566126352975491190747; 34044942777518765347087583174478821199627281956846627858443588351322880220790; 20745741163599706884311156373673689848068805334088989041200498900328162140865; 7628868509751461415844403316377571300640049138282825927163283335687881688770; (-27126301047058402496085767131459235068112783193769633234859867932858588903212)];
    [2735364458744813899678337886244712115058663555408219053594731632399008245191; 7659925863515501254832282438154604046097133744009920864278620849342968397659; 41223035715625549356371561590463224492713123068980295079715523819657004276608; 8538201289538824323818511987015461341712736461411591372400277442308718999215; 18468077198898130536731963415279436286905219964669722437050757316617328450214; 1206461146277393749103979210833101894444958186244446868621891331547648468610; 11739297520933630637215852930113532030743147955790114156741953103535796572715; 40443617018871327310704052260644183039549664378842660014974990916144087335600; 41033309855343261266481330536653809150880092526703861570892927974058954519166; 13149606522925762085504268402206289383048031489805773521651628603252871137354; 42568104969621680308474605768178270932759485277216092485421933921220574624411; 26291253676238915818951491147772160606552838203928784777661451845361611292731; 2011178521382043859324203793435961853202777022493329432138069696977484930651; (-5631965540398351953838198987499641828932225165694189982220703807065958297588)];
    [42180668358120156446046343742696650872071216840898338570664304803599232207872; 20612874968357379263464684071580356302840841783277039462674117483350640344081; 13233487105998913361142046425626315703237370394848263458536201953377272913240; 1800218305933471192556555033835452347606722293729401042024886460369430357723; 22164023291627487420451054822600865280740341880972609407480240738378948160923; 200332330599330717184792261333841579260749094409118874494789861932166067001; 37724938007884257183514561103852267025268085733966619410305510155607085297003; 7113296552163960277041865979331622980680106918947012036785937633493375803603; 8097974242001671449842548531646150676661663116519092388859108190092774468234; 5066102846554185954109140250035711548603418063973500104786045101664495777014; 36896606831156316588817515091751264095992338220753485530903397836655036117796; 5188611296789902666911675166311670277638452388080859460930019717576662614626; 26881344771235037004097324638276006104025631584746051473467470211295434342056; (-13136392103756356361349267308078152590529492974824895433391523244506016477342)];
    [5775091426336568960469984583760878007322866689994151809052428061204174118889; 29887201476225371519323678298160551248870109346391839268198088354406816094603; 25319653483624501968876239429827941559391074119494459264314581162545165796085; 27760253699297140244150175729637328830106253152701504816746743568010624179671; 5681455401390821495045680244348608914477420472562607149096576999006129635126; 539094680071544605564200765211752888522744985165197030120604872756626180178; 3335639056433336255366190894348867033446412409391762704394228034784800400155; 42968409865946751532664096359987119774578120520002321929043882140462408288670; 40776741905435218489607758401222627415797186416062473637467097283049023753885; 2484668564033874738074420278021395592068205330920992209438578453898404175925; 34154016486635413200505902062423035627100102842146854606628970989239829461207; 26126863012166114258357904477564068188306261955387290881665769966137512918432; 3406840123295069526703378767800596326468047619413594688666039964485397679432; (-17631048522949247765437338928516611801501706591984994664320244363803019241521)]],
   [[4593974641413661360409473136007336083343073546391870079652410347676384305242; 11075416245848335612131624437244363233020121445069123431277843426699655125974; 27299985581773775199596143077775846662580048148746061617222103878797305791428; 576061477122012842716912681880886525274586338519081045101568553182051724257; 5734225844062478157336294651983399421669908732703828069478132519448102873281; 15428425516181513991822674206704925158650772527625714616330698955250960082072; 30358443750233459835242556951948410630958527124290252221305458701514932203434; 21966943397343216383303824439074475937602882703216564864839665468681687975870; 31167929252978800489639537963466207934444695660081716495408750129144911742706; 2703885626326376840049920171312357926468574238146107310712476630199942840538; 36330284880946800669525644078551506685724852916778048471984820644607361901801; 19970212918284174643448869708398469905558136621419872514914512816378376825921; 2882760101449433417102877695681114985912714429518250387447870578480938908091; (-6949922573070976719569087218794893425157229670465625397551507252450951600041)];
    [25600645950501492469870665030046909514665779049338234751618227042770293855482; 35018367549547244218384047246739589026720743680585178228367900785248202044204; 18272964381679339658109845680171541629811360602875722277048674270535293695189; 364525817695504886969519197915598854909254999046708072497278933280578872875; 18836824921183285141012287335366979490107160633069208288287295478654525773513; 2118708554733809377166495781799017672274767718375596095002157760237501640487; 13678456345893145523625449503065986644674614562365693104564120508751574496676; 4240873662355211698545320534263200893568348366893019256790113390039800307020; 32854665425843218648606841044520237617186921465363492182272106095876572453617; 5945218418907073969233482351563746889598886516504627363159486354380209841660; 563860539503945482902441655195437860295800030193486011238621208119232078323; 21050954607463121247942287028632281191522746394493211193505350966613994095488; 249329537663221536801685723217619534085152266367804494305951710952760650506; (-341050511292991036416940522832732236946354936080687528237286974646197580110)];
    [47381093868014146716290594308379387603422995808043370349152197064808697732503; 33942614215534729019562244640587123042155197238234388559054699708318491129837; 12673922820422045532984711818054615270086842609439159775814411024924174758895; 11320170097971004137194132660169377128094854022693401131257118240626669500521; 32803635384794811546502013771011100892269268192601869058935998109436262538592; 21180826322632574775481955526524456092148243022470752831347224650571318056176; 48085122847228388101823229294620830463581061621871542846496882633856168120284; 63470049153148203341256416955462547798806422245431991028953310831267925517288; 667300580749242202731082110725717196409885455245990364936145247332182937464; 7180986988568326375043160667634131136204794158849535627018714366516192820424; 20129712564372766013517301952956485622182425583162709283121587084512087779696; 427559192973445135978017736603679615061994482137172085040990932189603676376; 16473798975920369478658457408900300548587288443571223953656721831194879555906; (-11801411864013853478638211815277323453327829878436347244002744046843043407898)];
    [24906052884562782063951679699354048255575956337820807662059523674932368870434; 56568276242266121408027385930302597564871675885758994270648969197209785960531; 16424532339711295407663178806062664154457897775389111114769287359766125001420; 38775845067075346786133125967064260589128296730041340048194336529291369458361; 14528053493007170207020323378339467547244263325561738611077101920894651704797; 19899477889605844765924441710689892373532251516461289001230553747292742176828; 32523870281402033665368283890346802189623099310047338083279209806227500783786; 114231387308398825728572465693893256232587537822933354454867476847250304333886; 7144803118910814583690427364482635978055409356933974384003635232954207237137; 4121464359104995411519377851534078476260114392485910520844672532496752313047; 55999565771953972511142637076620757319421357882992909516036606565085091523325; 4577886403224340003547312027996678510588902704287047927153053314688945351790; 24090214725642240063028627641106194673358948539190108724538997770031762667335; (-54715290602321384456458962141969311347898258565326409062732593047627274634289)];
    [57435379460912946376016399473592937666208110907957819293947071147026428093578; 7182409611272236782881027545209618023531837096266053376665803045542815763674; 10626141249596381083611195960541481481438068252625676105470588398836934106777; 10714228828142276040189169908765626577045363978634768151381029093063131234871; 43263172212890218656722030568406544505717907451033122795340223420912315970803; 55270958458362089172328716208092386488406923537106108454372710482434516521742; 41350142595022345005990454748621141212531076811899486496041323554853938860421; 114654919008536171233673196371138430587776234897381675441422107915616875779396; 54683821792164162971623187203769406054539022538602567226815882284389152464490; 7940448814211930285313604094800695845954597402414798422546746694225863557109; 32637030963293837573110834607865063024279839198407446689869635022075381864025; 35037539886312998902346469502324758346469757384945367877356304172731546860825; 32377345813538479100104716209711450225420013419961852863840123862081075384663; (-4048852152476878678391324082317905912710133731955740208337545043260508536044)]]).
Definition wit21 : list (list Z) * list (list Z) * list (list Z) :=
  ([[30529205466975385714812549513861014452090337118143516453664072507857742619136; 7125260873765897199283482807377738283869669398863477721058371121253494745364; 8592721976650051028373094747527300798065042857278998055654599468701860324573];
    [4851318572244298332421739462250673223859712373362991207024807491237296616580; 41810773999149254049867018496551154701068004337225521936362616578490677907364; 1365447645093401213941857594934591865252839663615490530578448438593608611593];
    [39657588354742943037800960858739478142403178474532469244792314825230389197796; 2987056794931066017537678402828227910907122135136606811390127700868531278582; 11161988194070794974655664718546468935515710582100914609000608459842432953242];
    [27376756698200843765690827290800801238834946608456425462872448105829514681330; 41736859582451002530245590953288844877116943472329837904442514129773607073830; 7705436657514750989695697152418774658677559150954102490018609249387880761653];
    [469617881708073732594024425199495498357221244994835643021454510345727285193; 15320584560321709067379126122367348529500711580993767831532661959448852891385; 132178215287847688745826873707786266054153866434362531517652328935603086763];
    [21664555491139198432529490151795796280300901133492805662338079789727852429844; 13412071712752364814143551712179570109892879307290846711178734942122572410434; 6097685781061025357318723889649493266998373073951043324356066644086602490486];
    [48389714891945979347089061882935091667679011235008385717661215760332699879825; 3690077865078267990474230743921551943911676255734823182370414811578867314875; 13619724465009107858906496762606063148850131184814386603616381507543874004935];
    [34039429566064901143807674786183064757872182003111052392416094123251993040947; 7978017671677424405951254035878315487682857155779280941214450775699785495733; 9580706409846024976316719670064380102646384367979015321666667163847264229070]],
   [[42210236214376757400012817433438249353764277058741656671329805883396582814232; 57348137657919450798024470676996840870809450785193425110629834980129468035513; 9399047480129463873809951311331074792893066960726567564856804554547578260956; 56978379707064695722468616189803138557735974559913133166507157882515599695272; 11186864388220540395100889020688944479108930352592583210799573140339889731341; 891028189643734530120401433787008096254609779845306291386331533149045687315; 23748278183642677986750446855398094249547679216785901663255730706646388410620; 72119929644240224651155983238345623221729923137485394900010231658171634873316; 44947288917134932136052124908538934663589446402530243355610171444060089756103; 1816114904415578285323502183976647986057489396496001479198477591081283111257; 1787816908091076521290937709357869686215863391866015645942768585792311470384; 28799055673197554244126899850781258952378768877987647500424037240656422475769; 1303442653045442773771119446682335243864010050165237536267376820046307791353; (-1770897663694997938985031344763331206196224652118568562095465079510609725024)];
    [49619696907153841524267758309928571919377314316806237937566172168272548178977; 3485284761037338677898612804143106287484112216833241606337681061595457802082; 28127650145458367402655264039227843211807483292413303703042615390107301164808; 41874379330677149396915200995327762399388996953593890132492022935827592447112; 33114157900258428087534488521519870246375862087208437669001873318079305485373; 7114437917405882479722841626345175940070501357490517474649071241996011022561; 19199411220358052095066474202036153232621790054745248293294139577191359714243; 111117124591557237603285527201547459612440884404034709624120589581943719030853; 50158627375972537696369103035302743644603872751797970419736877341332822972046; 16087859791025628388561939303389249158722626272605844718021424595968198930562; 11654161492015135383273399417702184124845468624895396266149984255360446114429; 32138114157562007266783270816144406660982484016622645472610164492492563368449; 9988177340088176309864606330760491282222530404607120189501187801284569948352; (-701569022863758505095692958740141910552702579483139083360182016645580717073)];
    [50600021921010654639393042398421493487175029585569794013338947997757371996000; 47754901932658832944755602250322713204028621750591692777499867217041679199371; 27570136567237100433809652526539311909109953362097780570553997304889937491531; 49224884694099235417190556825685967270894762340732229444211747896838521778075; 27942028721593252667459412407462766974718125494402699596142234604055123567439; 432373971841730385604171500742869990374581762723594298513337404775979012121; 27275686870155549254259889881134955362287802084647422251782927719812763194130; 59270482581664379657802398990140452959849200783115615291374958953023650436162; 37754657962502853212861225094184731405655667017310972379941452162219570912241; 13306013440022162862585953605822085074994919656170722880486060151406756966532; 49078298627239547152164917015815245395538798828516113844002716811644420548735; 24190524562876316491119925058908575417354787059116572024052207710501098502980; 42893482667793810121133574599841891722266541089572769671412723619996935221160; (-40481683220381138041828959018916386783377866985676738010751220007147067968916)];
    [52392053468481918215988186546895350820660735166831544383784348841508738741461; 16930072187796827281556450701960887458435200744669793811845050302764268774678; 40627934092012475706803197514580336819216034745514754340345816309777395191237; 50197409493276023062750528188555785029305643104182223987157641280303413898887; 47224442451545722136054865172739446217666874745864742594419944498075233204344; 5924329872371888972875319613137494943777284823706387202918669795870362265790; 5648222174953215848225495682268340258108516206408078142605769267129314420665; 109773953741549329646058935283567825978292876307632393779181222996278215649023; 22040677429697501217342012617896753818661910458950894128871738912237747722335; 33139250670591066313689268078386750945418365151883907745507360751191837280957; 28792350819577922231832604841411122556486022799965482978024334107156038228622; 14122113072116028367809384656585582199906212333992380384135226003184896550347; 26055154433407978682353883637438836542619207421206661752888182538668639890331; (-8419514338890315931337173300914086209369362483837957079415336748308613673831)];
    [41703669482801241018094405308949407506910002556815944269038866994818236655785; 18619606186702279657002950819798663206966455524659784662986350503823852359806; 1066676186371704302561256541280840234280809327407039925076776776023480311420; 51975182268823615436943060715092602200376625710114570463934817414966990170862; 5169466334493184404410394624342659353788759912131914592263818734061624611572; 2100293966575692936316147068509847157825308610358664394711700839045521434600; 22893898051573580178188729013844656321960860206228652056898194198355279098968; 77370440816769572449245002505517689907190891335217267552458438449853122111940; 4800104764626882700192395957298452082477144013823717697687526940087747303393; 95242199559122641623575824416798494276499994060139087788863596643967961003; 22279728641737598694505195928196745298509327028438028497752481394994332504903; 3075568909362423691857201082070593527275539276360099889231430001927739393388; 16048530526765726373797996420139553950947433138805663947158390216851137749536; (-7165252410387555059797906206690432795802280520193548099970374478869541118196)];
    [7063805793738720620216139553284159940750985676931005421484535425679681428633; 30244448808638391943961946594484801763161736956115445952965983675607097796400; 51097792845338055222818927789733026583778040176945770284827016911571374156517; 41371843230984117039900600211234028487466685369567193901324628520185585400937; 51093905070149706327900859843391319586834614235397913154574371724771519151541; 2309892485995083950578411439728638479630347774124758559371848210691243356947; 14587381288914592624106960087330236848079151482303773851744437995298319121342; 67326822221272582567062557890074815788248609561093081384322626263415358409910; 47451498065788791963140535041088984242036052251673436833851113345612647598673; 45094372061688342840008995565954780535419460297918286256993094399075404317176; 15919711716807687901144877176219300548687326506617798599927730465084221750899; 30403576444681055327590455913140004328143609991938608718811036286696644449184; 1942339111428624048795340962170079861042500667299175785308624173223920454384; (-8316335066387314710349335884691146356528971493331501747994013743137773332642)];
    [50821319870416465254009388267125334163559310625584087921444311551619938114722; 9088620056811087677562838423666372834336956655193749318058251486947572448962; 13138684635371496410430094527324863398041991700630351396122959805011375289210; 7007600758806073725014576358568795652934784260168197365516745618536100513536; 21796412436087207295435326566400380036657203190678406193197011404173338494933; 3752035587950850980025108538620135465906743039437608182085750229047473972183; 44731589780342919316376127026873104530494248979759569432530720321771916562718; 41639751772798444207383931382194050640033263616718502192634925128616600298302; 11911117928254329321657380966302294426364526330182076777573735753026801330291; 4946386079852319379254383948674902778423223300471781552169524867445948936811; 40406511850213406044477398345798486636960127447977725041930646350656640492412; 7631805090140764406406071813227157644758984844322520631859028575174693815057; 35468956076589827975188981776861858480218174437115969806813485428374557532439; (-6343083304680102201976631002364318214535169811147045128135536884320738527225)]],
   [[32196522848847565735856334276318051124252886737458105769209166262725053033083; 7393130115855485575153821803620022305971326776213307269593337761874989725644; 44353818612491555290309505191501681218839111317608606932405086058699541536196; 44611105480232220900229430181639098448171854118033393561164486031066313573312; 50898187329455940426757747044353132537933551603394996604093450500267299712189; 1426747113402085356824842691135511430727255829046764775891208220637256484995; 47538775836761102581111616799533035419247042261585144281873140797557697690381; 61993887936989155068956780944531240854264824258638720219484595803103141049775; 3926022318876794821364438403025153840946908021933652073188312680847190477895; 38992801380213342611923172995819728519499093726970357111314575319784007164801; 6544368716964385136448241852851451319094440285786389671688364441567758175992; 2515518467509744220237903734057385528175630125506204258916993367378254678417; 3639383628275066628441278794925201958865614064237186977462533344167760494227; (-835693867678474572860542571035061902763152054767730147819172988455703940361)];
    [24970461910561685087054410555168591907166478298815460063350897541212489434507; 29592115857405817829899349542395762534440192398798334180602563381251866001145; 14961947895895798783612191136545162371778278128389873950620684406700115250334; 17904782449029241452218821005697254394752012157597339565422310958298066130695; 37023365354006240185267230152321466735862944767072556634278756721971828018801; 944077842795406595437076323656107809157455431427764573819986455449480688315; 8635517658851336326931104511433543205953847131200800988183830650937026233314; 27071635587356098556814179569278809478611812263703443663553976523747319221035; 1771594807236322707625879502684607255174963257592600446193677659280091947184; 9567867148887004979418848981352013083307498669883092303211161906376345910150; 22061417458110441401655039015776304364084666638682682683658072315271712768466; 1135113122796077266228654156722326357217006071915170777234627109703446877046; 9515050431497260282533602021515261665816734434047462538883328637318508977910; (-11276142017974889138336643202212775339452832999506269325646935430735546816440)];
    [27245346486052156612556260664476378420790036658297676001899098524885355077359; 48888870642372071672067603659241911365933576620840101126375508459414510565522; 32946694504460327736176359051234264901996797633105059423170671221281348137217; 10769716172041733980175543556366940571037918927729218242952966358586548775768; 56645606533985073622803044114181074653791225690703869996770769491779698591752; 15125270244038745451656708071838781998015596555359878477135341065002945576877; 55499462622201562381655214085577571680461011462672377968567150374382845422070; 51421041148743394507940479167799194477569337720453524434051962609046403193666; 16992535572283852055974741993757196309198733779772146866735701942809168683823; 32235112187502048891640274917533272947418379988405569392627448112099548220189; 23698912029524745886626685062946809751794428057598810573600098270498350454534; 10887619470824944413587288249168561786231052979485950955865908675814843462819; 11152490188920211086240143425344194460233083285714809287897139418678947428236; (-20011955086185726525647763681628317532019241208068564404441580802646199607055)];
    [19136258585028565136045765318475835467303635827791206963510287604802635715111; 33344540989183453160057876432486571991820248849096960063935237253623116441578; 27252590351499819086261573643742065125576794376595527679954225220982060886329; 12821409649560265194920425753780523265259117376852279146798795758628883879048; 30490210022657333728186220565810957687807634422390044578551052877472026239229; 41282987265011327036833400685402876331430115586158050190208763203466229156995; 30937177943146011621701998557892088562013167366040047971636111593644079148065; 100117703306626913405348075548211625869290865541981689160799725221097335812704; 22985338428017284807308981691726824005299556178693615813869996946661096752084; 14352227495881282889119429087430389981750195606448272759936877103082157557093; 3237619671157514641924646922068892562230840045794516898596827656489965352899; 14727385277366622040288755016015686924310217331958483230896352407221128312829; 1070123661043312061921498713146814115359107906052662102863661063943200452757; (-1864668692712510950083558725830022726186576055246054500903219701188422416498)];
    [2051620019948060320139165007224790046062957563684725660075865905766801927018; 26634626972702021852271593881089056221016381869788669620902290400855180194096; 37718840866075945039961205725319852567735273428795890176695378502377256191213; 6325067542093639565331372039166940714825927927030163780265503889098951174292; 25578443980618264490098462832247012983667197364121276640151530215232391986740; 19204393341596568645177965165314246651930688134448782799455416229269271583856; 25766490504274733257318987754360477741561434180017691178358408815859874279279; 47572063723693624271799661431850254144413836749707596586912974860139242713658; 7424204407599340445963049855077854547062401951868817781939027560535515837513; 16664165306309316301288586182659443396680731020913897197926601316717389344743; 45755647733200417161922749611271114342566916268145668483184943716811700615475; 4756907061910530340974878367437033774565199350335621210453675583002203878760; 1621409606363206407373680363714019001060930075944986380626116192714426437858; (-21049531402278347383080825667320074502623171055265328359430724962322267745893)]]).
Definition wit22 : list (list Z) * list (list Z) * list (list Z) :=
  ([[19894888738178213129913547526001517380443060205018269077878681434722593234648; 943831902178580947031995529845049529678323442956932800728673436809251002920; 5599597011080948912767408491118274301578848270351993213411121981906534962332];
    [47097512067599334136795665118823558962609348753765723891269855090758647957253; 11960535330584692404594568233323469550629173308843707039644475603618495855319; 13256022251433199071066943569518139440070311662452562334034528280110623679976];
    [20877307374675550266318185091602014000598259768455838839363930559517315145119; 44273655794172546139676941275612009655323893447125471205252056469110850500949; 5876107653234178351550966829490731736364200413517348685870978236155630495202];
    [56040147580430708190219150539956449488737479705341009427285075043759093999455; 21686868699042346135668550816580956160980102515063777869896378504156059906735; 15773008184244317814885543957147178803382426109428250512287328504253336305271];
    [51510984697108363572598805139382051883273712808290483711615433340539773786205; 5756668873725278564398074569078613532847517924709600836168581529918135745135; 14498234181840274211201761241373916991524542776183151613602476446282807140323];
    [38708482813016214219269074556300147374142141486407643464431610187079396054582; 2804351618992588738998038927419938714560143756412344907170915525426110568773; 10894853824806661184921425781285998115168769360877676119836240685535374208841];
    [36099570246896386339788989997104890979736554754851266526938263520258930775685; 2391872501619471607833996039416972993504655704851464662708213006991784477250; 10160551703308400488384052845173342484425382448877474158339009221867627977268];
    [30642278562147956672060589358391948767090293007080571760426525253641881649321; 3388140891180884519516360719642169179212233121815208976108521274525073770787; 8624547425592972796656771998658408212485328635234717171305425762215512922256]],
   [[43769380888977812413478673890986529989191732720426156771316652232317703571636; 15820824354793376257897629437049119155765096347400266612126312061920858649044; 56581525171798382948103794101164399363832481571513804324642089789267425148867; 72701766311945993738322752534643349054574390751497359957110890990533941893; 8622800180145046758198066189351942114022349162593759355578552947829073958428; 12253053876954616561204499512619096526136577977030463197541572592412210010612; 47098058209641758254343462838175422312105958811323819816249213602585120756642; 14213419447623724449006813324843838934547799253695826158956030357021245958346; 15462337959366566458252077499666508939345711118689591353953931429747623592502; 8427021028083020587687020107628737704960170254257780921375589234741078855126; 9937319627004761521879764592531496676824859923900237050665255162518213629509; 9907176660878311839404934011856251576995174578415063320874186088192066782449; 7512608687428628676445032558794676371500262346076625641715266094800773204137; (-2715497913748966802606845300449696004629096557516947243585505584312117352203)];
    [56740787906884532324729202644277150772078760477547278731127799193177820198296; 45175078560717607846973195839567157523136381418487876530644813390761522101070; 43731373307506007793772332915446110275993865879194586457383580311974936325709; 1551023713001971773072210537908047994086452628825580432794270344939174048711; 44945709011741944891330148526476041720894158860872478974844300456568150006623; 7278247726007217839215513244517155398038545536421152627145460227952999594949; 41220379691907593129958589046706507821111382522988760497057859886045736458593; 29525667206195285301078314426604472812888032140132182420305526998401733134923; 54004239210086708517039192750148330292983066495796642154923025256988623628188; 33949427673502797091912829246298470857715454751288259604466022606900969330931; 52325331829479705994953789655111884371928868472607484986780282003390903695649; 34602111252299815580735704887460860782712466495814995472745256965039930259359; 51281233028085862483555549454685266568656461318035088380024068735628055618311; (-40828367320806292941120504527615975410885876058490493715804373709792748138908)];
    [32590387035373356349237944783725042971516324481435734036565592641529718964239; 38526204566884529523403748198692080481503772366256898154955286496417003279230; 45976728302974819792344877518096403387880445595149983410939870671407190035459; 2010682028179099513781288319286393283866852076823377788159077724689510990081; 43869761743747514044718246913495462013185189918593076532698584759837716314282; 20782445050476922209680791878246269565790454797687396458091899707462621448462; 40378518117060369005671983152554284401548130452849593362192171165396326176309; 50497123546457247643058168787368784138755442237828710606149745287522072420835; 43004268072936879119480274721659809537598822596195677163885948341298559828336; 34838098693852838144187596633091029534458278813852748807777614347498151412998; 33148042552808426172845862783846121508781722682220856027756437126634226378955; 27554104824895980896545335721787438170922987650505761784810292957325211903225; 18659435948978498751386677383101247223284466722740477718129247347785051657884; (-22057953644206831573584303825460092362918515407331989169280375873249624535389)];
    [9290948270196782016552239358188180363623132037413100207517341412817700527528; 35872372579788343653904692179861836918259031561521881134036057085120243861940; 23816979325431292364742344986613842282668006279327114628795168945153450936069; 1154881839338637541183354449928357387017813405096232482751865659352814920917; 2873795540542958964814635519125624297250177834227244579682908355204336915226; 17723682059314433958227781382057710234275520724923962376430408548731615866846; 41894470935349571392927795212240347109479133631947093287386658413740939801594; 35236744157827040084939897281236685994979813395621435152600956991258964220728; 4375039097231938775103025743466827103592611979879004424824367393107422375161; 1182207341200137166642953440675475736192349681399315504957390956752239992717; 34911564577672234296470573936738620260964141136170586605300845595090127822861; 2803216780569064382926671147501820614309355669549979369233668897881816705206; 5602481873489772731699477604497185160484367770318983492576225715077026389513; (-21631195362696720855247328586189349611490797903153971917526640811417727672555)];
    [8596047903275685753246580194150885726628605523950828844807866672216201451753; 18887850357107750516795583682807763951579049355018802523141562814641819842303; 46254472230743902173091282802294206047705785071223654925883845192143333470761; 329236575676097054939719811718093723669396596962310556633773683324426063907; 8257513668079212068004686409116214954100949966021638537859686894976908146619; 16502807205253120867344438623927759756910208592345455382145765760057777623929; 26431737364374695310561555698814394339258796044084386107030327111193196161753; 22377455756165004201351714188383093908497191050172591641456661144103872861851; 29101157319939034015592536089136052779666627302029517187017951064198352598725; 6597116248111852788446623530723606462497875732379242395595646701088847043366; 7366651932507691093942558436914676637101017759474800716908396421329860240765; 18645971091971852421264084878508383561873587784012879623838906310798272128890; 1093755079741442775449946568166677381143539783787692753574823175056382515325; (-2403276773924264263303507722592448829058662524786017479687897397044136766728)];
    [24769235594246884116675095451177409445249489830013577302337358622842509625243; 5590804631373720641191779014802984499595292929546842536890222240310670100045; 2911698764918165000616569828552789221880151840792433311981760260266729806086; 304611896839485748893828152365020014154201983410282949361891584308806036932; 51361941194242178364842464146624772318519387779717453267342784132989494608082; 8689209286944232656682329259743578092125863044388054593458668014374323530294; 42364007788609958106468592244351109740508736842930498337489072530082721755347; 13617681467036612417139245082650670430600537486935921269287395223753202551313; 47673024309551412445772975194345684084422053122067177524888097597050773191293; 2583086663762845174735162710425290554627459246449787741723342160576443439691; 377382364402781559618719104812051794344839624136774640216694708910721256355; 30545514852556016941546794349080415258175013160050850886465007875479534332740; 161452699481892153786866249316801163610630270642003140234961066516534485621; (-36442404392197292351726504784158934549251931971878982053387825616954299802)];
    [25129151533353404139717554541472678604163033293344388344698639707261640377912; 7806071603720859404100562229036778757080037506060353939615952230465254896782; 21396093655341912012591619265059232079226323706104560171725905517295164139761; 877729384773726623176159130878695059752357346248542261368086113041066587537; 22911012527350125663018414502450303127598632746771826246915662684678030465443; 2572006374782728040955909424206658677628138740822516502575017421380986117473; 3858402050643355288143575221969347258280218263868738906196184885987130879606; 15042748055681087622974852029540361538237380774181167958433761772568399275074; 53519343489385578511343126581319577102910560036053308725763543207207716647030; 8467006217829203114976639658459291586628811475771894464163758987610185855057; 48402803535635013814200371763961657978373382136557078214074351932918860105001; 34291424241078467056135267310890204601592825502692088847475030088257011418301; 21008712990630167486139173480826338594426624464851183798261346755186558484678; (-6526106450080967434481913482228650111605223347035333946859367292081901254996)]],
   [[16286486140097290168902811228338717466195910788306539796964448105895915202654; 45772195081924706455685187292739912601741495890583239795556426093338080240461; 54864112818373220667151033526660334583743293698616042035103832346655003830030; 10907036239617882195410857268753682166330340851244911636663544882148747820986; 55291712429301464637090323900297449895148558107555677282031213674938363259196; 1052485610783500233994960291892675143174104816201087203179603621905889340072; 55648293134654403224791551135053774159802453154692298798530512520964000747970; 18735803632763151468438538999930695667928911911076416792060191053104784702634; 55591156357582176729418932930690313440726900898710014691240756322844232953566; 52396165724672521665994815039010621265839301948455484543835084686792490098386; 427599610928243969939290373637115311405264408939635246927381328283359429165; 35618895943446144255107038257294259565300622684718320609337638774574015582785; 120286198871857431472865016781541821020287009595789838750929252070743393180; (-338057166724912723253189898408403197789873504988412414383212778825162472670)];
    [51829224299071390883335050099115760084249950153969816694506997046362162191848; 6651605539112656999127431679750059531742481947979094622174982403235321153992; 29456978303130285125785985261714905953196899781477120203882635037766427483775; 4581481041385328223958447166708345842409385489484771397569722720019382239609; 27984010639640872099525581543523127486105243011979623156640775205357642590705; 36187167127175188492149141597258847051963298250323173015583705134643427528984; 46547492905582892671675043351586344350169553837479153451881300231281922335466; 66520604997865391799378205454063103239179872820038663427726511590827018667691; 3526810605517044959331479590895240407056508769376031010947089012114607788298; 14238008825577249565767754459655150387973964561913821623614547648821476673273; 56423076955168684685525088786152175459543335563322784972486932171547779926878; 2259731730747137571751232813672171896274145127781865907142343168505533593088; 50510606215243450206366346699514859672396911790406398340261993167611738263894; (-6482378091297637428459486598455181816226278758806187701897524783184920015736)];
    [40991587245288082732481961079973618053627134133348505841086323543061099679442; 54786666320687642240803361615502782680841653229296149388899422992008505743553; 55113020104069076850375517867353969201040983955323679539299721960024842092827; 46398134952689866036541983943390002200518832222764892557300828364516266594073; 11790591346020149871622967448588987730927329420347906807744970703467064069953; 764194800169401539866505741992894652839188399329817677082539834956764166939; 30742593765029482054017296808610765181431443881012062454124692044496552363844; 59071521743654236223241700436974989079000862513449285515179786828255762336044; 30519652626571196571415929999754129413937725919022172994834481712192555331857; 11223825430082250655230427806660629454905654877970655760640299037140858453426; 14573615860609170733032942085578972456521337797844509288174040747398786797074; 19554842934791623203892039050604385436058680518940159911662436686288450765989; 10318418986380166605551900141361999293023409962723115579762584676218397538214; (-13790921892853511698053371706032064893069861226027466458317120778925255796801)];
    [6663732281608296555434424168258273947999213868485016269558252248117664606672; 6501082717027354683185036463519938070371383290746362451621479643683527360462; 19785591928262250817873337146455429481592499925097074098558384508960312166904; 29022884653963956791586560474942847503260387312884092801626413840675112108540; 36390184648591953344592361540614716388146382866698172618088756488072111315983; 51844281009260068407528054665982367673123831450497277359527513369502019508474; 819160954977121558694394485266349876821963521681571796490435181271483485319; 158447332914898574216761222025433643577993026120453868376756761558032361015594; 32538741149438420903922365182828463478721606100539817632550442367336425486492; 12436105927331687608947725381040206736342461008550905685815416471982461016860; 16604592720329702526719024394159286906553882941601098519530371979111799149078; 20848532591722191093364357978625029757563680926204374957222804520126502464118; 1911159238290357480410499011019773053564949247037365828673294333070117020144; (-1864511323155665500494598529916992101007494812272025280356505392556599449089)];
    [6619991358524042425167715374215849263046545656201214435076171013124526605093; 26917309066133303918329708278348164207184189035529132635850906972016457089819; 30104659327773756367413287720753343522677177316421378720218985101448896450886; 766983793339105849514839799581941630482373320081334550253419075753702415202; 5304518207920027205777367498468952840622859853619061314995417626874346077976; 729999376848817967477859177619119664231872139604950400770327631011114067932; 55114025577808524543270864360712550845930274002477557270747800399127953221126; 2993509402755451984469310392496526004145524219673008746104591963368343263670; 38715096454874493464594710525491918246755882129070025200039618356546921115939; 2758231837757393497125054039522119923363424140668424670351264043792040711553; 33095903498804368550149572282059563244580674870017964614505224529382014447038; 24805905874605404451798207050570598909521598403593886660768731190181441286743; 3784275706703859260935600630258649662089615492474611513427423931702585448287; (-15387107516031338828568907196661217154417012738699812903328342396018100975585)]]).
Definition wit23 : list (list Z) * list (list Z) * list (list Z) :=
  ([[27530807659849847188101740647952712239550753242740479481937681435443989417878; 3077798398599020546545215917574808026052027450489921048162575816955423756661; 7748795698912581716415070822978421892157019989515599915995216108652737606444];
    [16663161996360062858153625760761480812968218641057109849249994123350900429631; 13898013137970161147091511287460895129787042633238666549683951455077665637251; 4689998186866947154625061730898658203271938578932155817382973047195011213586];
    [38122708291960296893500115743801102180528291713107907160238709328494235889927; 11876697544420432753462779337795229805115188443445982054515497290026735667289; 10729982269080009261593361855659962052422293996873959633712083591512473606549];
    [21993803679950533918846258614949582093606395416468318806731025448221971467453; 4838331829770847254830320039912983820510017204722838463544676949413164312622; 6190355672219240243921648447473686068527422654164196317933500200951072534079];
    [24501382619800186014420541803187142017511387025337194278442755416145372919720; 21617362299173554395195380326569849425598039780131822654997890164448263299477; 6896136524850307973286021020731679279730244581852340677518729279095903130396];
    [19876115781360168646155648167334448488231235604753579583561638809805982419185; 34570753362154193545393842594981256764802198530840032321947735959899408164300; 5594313191991991313258872781567577252732813045955168898948636097208719461168];
    [47225443130201151415498128908885275127878519103362002930859607131315207879677; 15810948395263891463666416678961740531472602667137810734224656630737313948959; 13292029610167246634822529929116329635880788455078069702006775817440846075579];
    [28179676587093604580207413415238535558171770568800705719686416741727396174884; 4324426586464712217763706453891245125444169724211013896619174575023896252323; 7931425747936427557778037126160376864974882969424583422360738866270880563284]],
   [[38950448012588243946414608881956854172002510487947106773277630064696561000253; 20658041943100844923121417719401408660730666510617263285533032361124278074110; 31386208197703992245966244498386913500443125890795706416176545943077825703774; 756947834270698868457738901514876978614752653622486299186956794256262346375; 29853941791338633636971046362057910167533863020863934309945644443255713358244; 12514525510923157574314850388795076414514264210791226027083715403885871273833; 509676071426124835569787147662340293808510731500035650539969249308388257876; 19427070142391897535863021125459569445233071765393554422595823832052981133532; 33330015387006949144957285752577749269168743673238014629655089568682355142935; 16184214979741876282020554441419744355037064678171729731875097981400143178629; 56363778212292739102790294368014950593725729462888509913497890504134452474418; 21355525368583883094661986182188930714234456734398019417542801664611584133343; 37919592392041490603607863886854351257194803049828079670877165152442770097801; (-20111309883956013439536433143070830984718341035156260414109829682483988308512)];
    [50721058380576106208981643267156252211388192842352961453479960149623609043702; 13556771741525759122947963534399359201451763071267182316832615510147359680194; 57299467680700433187320075368491369962175114560340869591008222716494086948487; 4453700264886084509032190318293221493904868582607162183243388217860929067058; 27802712388940704799016701019386369797128240626167488602640384620159487587890; 9604436768455679741633328178265527725641880004254746683566957961914779511800; 39787646546817745818537494830939253271099318038854472500102474737513007763384; 34529264454447108363652940434070054271342166656328542790218392314975003685928; 51665065531939936719135935938644250571525750982059116238610516553171085018085; 27516225511760038651491294986288526853860764565313284769553128233784980825405; 2281285652940861425237031806583594357571510632205783817960695749732677264710; 33103333581628209745863609275368735335289151593760117094183114575168509958285; 1998568702710558291354630815978199295879350292545460114229014015776436520135; (-534179304956698903579996690250269930827045095176948203215490786596889943727)];
    [9066459199990487057566783512866495384906433960448006028148553394308414641443; 30896325601573386383760025638744259970194842073224766324073607004825531174417; 17359313519738266918493291848777077320116572465023476325697502342711060549161; 5799583898800542265957502290443269662492138827370462705270986014576470593625; 12785021698540087457969646245287199896687028853013851918167406715214605019119; 6302879882541601931673204452095752667491330560948250893963880128801300230083; 35046820938253439921420767340477526733164588751467413729488792653968707877399; 37234061733386582587685894441160872045154404760898272846149775473529194380397; 28701984309990364189350052882442451083149510123433651683038467667396836372983; 3833408680738958937626486378093194277733969379620925222747583318556629012624; 15743147224886739180097800786340145494734736900411999148026353094732325385066; 18390209153627955553571115779682090922582480410897623961922507085068304862951; 2465360162926918688491826828960620804618604911980723775652956152828733410538; (-8401358086850268355216677230583118840871796318400497238037694044790072781365)];
    [23854712464910574150049315770105149577566630877026350519326442228166350308197; 52465934102188362604703087828435337649739245938337825227285648259408611986469; 47791392887017165481913068538410139754084489081185831986263226571806329740646; 1036683627554848243484728782622490339286952319625296467756095192466143031597; 57808612686068315573583074585846782702901577182387933468120092037466801847266; 14364469122255445926881457621285969802579177627725198605661009598342444042093; 26527073203750567658207836321289678187556363379927082340638883677984788462692; 23149144790869862526668260987386383462944870704405839583233702683688883109772; 3589854123999817515818666326407441509077669586034827525812766360395147055312; 47719220532777910948411852909456561142827473255611783069661737992080655317676; 26870958247440569696256430782516921798611152327055747716854907817465783873638; 2300125575233884359193563801514737912318558451657365079600991251661135310578; 11071550515607038251082141315133989075997748215963097887302994651969416068547; (-24350712280239846548259600896293677016554602404306750389265226181712988790085)];
    [51043438948474549865877490448917873070288494066668412870775693334625845006005; 39211893249910416225972901205891555908370517133388663166785626120585646715577; 3625303539552036669268948218289647241276683405114077746843895111006761436310; 2727612765568646376717100850592589290012062179888416118133293347007883717039; 695577845688952413286802386239356518094808008350216512286631657672367039808; 24392715823230273359439018304250721958995436138069272932971710656883911253347; 47463674217688699367782198756557219576294793289027820941415301281650140420345; 44210074615356616642006274078919684507643825464464006636674301379332056900803; 21322176926115446337230085844170759506778195291176428310789896956558416099221; 43555321311146705060936870988600837761920638288860547683910514436013531191; 46325852343530491131381120729653285970314917437414054223944015002307806647111; 13661748576227784419794941413232386676235712638893844368744155452209420273656; 40842700592209336791113869938804565807784444696022342024848024249921129685817; (-31375621405062626536186303460928877637223543535045670086516442764549786790812)];
    [55776321050703236087338173385855949456324499034250698007870378306295564587428; 16411827752557687192422762742173580550124257748881908451470588647754523358156; 28645541719068990135554675340147625449158830069185703244221719933826417174483; 5836445770586443127297315202767852779416553678688734740012015370586237595118; 43709218423591602872662899614005005110604731061359782761453970710991862669250; 18230583049811954675334441740119488422682287275054059136472976854506813756837; 28753955205835838910147483014323506676515509893026133921656039509895331634988; 52281985942248696999112815182193474645461293937221202616687061163425900724004; 53255777237121898188707017050771320525499458720652222672029117829594218921001; 21626248357860832582864734557827637036625221365154239093045611342671322333201; 10006984056218070298759386357099810589102494866716864869038040000036303912637; 34122549557968845637241756235866045498046375360153568115973483803248379464982; 9640602551439451974299076899847460343584403070586862642786925288830079339141; (-2836685990122283012657540012673512350725053607703856215712520052567734567001)];
    [4805487609028089188035435787062236463493697705595053320910102397573543327239; 52100268478417557073660763168300267474345490988905135106510962443805890640349; 13088208109291232813293455448017924485601570559619240620661350528085543962851; 6377616395005400272281470483444368230255397127424378761639770852642133822197; 27896194278792104748540741256119212116870050614903318763820184245420338239275; 7630266331067683064603582352123783222575278849557738597954610290720665922461; 7286740199948355621684467354048563879498534949052016037331573366854410277938; 41816252724363462668756124508043095541803802204264609829425293292884071317830; 31851615464212580541059624197434482432184281547545159310372773075546246882264; 6306323663091597731132632710896671004361577102978337704699863450242935699789; 15695676612641627041557737264874105200547519844727821506014482297560517455567; 20408270868711815265384766527304300938642888465461861933819715656832703267197; 1302772580996907208494268059119626910645436920316874497440383499340377856060; (-14124435803089614089483340604730457456593988579918664338963877179685874948340)]],
   [[7102673334150108259178726547037373000787009374705025015842615748792126914856; 7330345983442420568594491295455459520320216451616073053526714012768731256311; 8227987743822129113748449854359718079309347977608797680975026725420749265233; 398865091952765932331551581602217204126688123268204764581252671478321916512; 40420058565245695567248599042973555595159333289034876696051402752519231987758; 46884687777935196319475890189959132224098519340112247688146682976104880605607; 47111354864596936129626383223466390864177230071424803796670470957438208782810; 55932406042817386687334854679343839679113546911802480245966284797630995026766; 51239069824941684159659344163356075378603561852990452767375069421548717253966; 5744360407865158685729572149669038458741923293049531981300918490429373938752; 32192070821423566453500149188613837515849985311426079015076376027098482722524; 32830385548989273820674996911663265465611104698517833622217575466908012538694; 3949315786604016420798112839246123055473319488470289103062629579405030779969; (-4075909133323893323397788692944871504202924520051267217007637129528085746556)];
    [55822355548589742572968034672029242082573405721138445160588022548204366508385; 5752280606398123629287002606708976491085254470747366295725973811408999723219; 3975137586334846186966040673171120649829780209031992645731402089246384127884; 871354318311914548351311646540896998752760724614491083663218058298575999748; 35808513957179104586714739183407006518660868385661358580141036100626972412255; 928111282746483806665571047394425765201881503426518962212341505929056371834; 3973385459764541185767114048331403010024787033053139289485164005099160130918; 3598035893368553216407976440114074403978894831890980730836863493912710015079; 6808932180355840070864387998757995220442948903044281967995676842581368446125; 2458609576518559263064779352434122067323554218016875472735001717558601229955; 31833376370844258399748698510235885868831088176629365934409634011380588284370; 4362683971854417115087480203534097590202933290622006154678406360556199572745; 30693185791705486060523239497395086596578369244170727754624676742211304582744; (-3162815607530597835052803795164191163326914254277134312919851566868391968550)];
    [41079804648115120583834599536083991825194843599993026258504495042904843482206; 46036014188062896365567660815856558088088452193850523146248322723406346107437; 35167307357954955887405035637200441237781006935338995174148719603939415391317; 53822940746956214896449520605226890063064208505645024852856348859134811598492; 7552273253217286312155865714243133382990396992609260572057990349531142486041; 571519736670931295507090123301875563231929384369767249105230985172802360080; 7633726566126569979940531406681868205792270195791106046152683816017777159079; 65486957573562406410182862572856550164395191271358714596681231284573387125613; 34951662838719970402045472780059956069106859212487125944159203154496653031871; 4587413812057935811071529891818533801403850786489589270507316722412534247174; 30281010513920428136536322581386646071844382390090547417638062749548291914672; 22394562791514599745955770967810019852442138394534495281976317803731417052417; 21485716419019212993371305465921114251647294839476867119194173013595087461433; (-24077932073419643548154664387977048373071511866804251233529825653246724606165)];
    [28538487777225734781750022687361610666923096120871073386362359575201285846736; 42058869948826943166496536455005522405465933040272726585026373998316642906109; 7504369492245134050197446387153777372583085107250807132807876656325154343494; 29147938534361561218338493138959944260577778330490585558793645258101571319158; 4593396416235499096842205620291832974122028258941047026281791685293113364824; 36605516253877885748417626069521814375945527719572730661127829074913183975605; 44792620241368222238267561952677751773016021560330898158561327376237629134208; 131082631663096999024277219921937696914968441072362446884690098383567016581309; 42008493586317808838473896131101211735087498849819606823191056868636498745595; 595386855161380483279106962116301194464272767017726770671107067237526566089; 54985071542648462758430251737482009528173935484510521913202707032924523841278; 26916082697889342856699756488254688744667745901383192098876093881565583315903; 27103592352214925876222336854363869311810449996704375951415451360919182018246; (-39944179060445082009689056482553196449811257882217124400861454537556903933539)];
    [12565258097955692523285632157940150666933275725759344066053586092157591802509; 44257820073692905562487031197842487206011716534849741297988353661581996935219; 3443297273697202066786583214586661928683230328508800308953605760765745732329; 14067373513602554997059416581492138369271852189111549063822184819549991214483; 21459550543833943768872428636543778834390397366587058700697017888590771055749; 30553875537159941279421210651549263603883482869897194596858980220755473672468; 42872281477432763256708166723930262252995654916809323978487654425826186941961; 86085102198744428399795332241018522395499544413093398341966494480627861311136; 52609492358182742892913978436007707068801141143410394038961200132455989753162; 1276280830047200773728963539805067766076252782608742523949143247590307054191; 18016253270136741702085845421957116905707167038078258391743412127825025323419; 33708455745912052029466812330305761712790697136706699220055071723617170624559; 3910092196945204409430901050071461902303798409559619807452111052248659630453; (-13772272369964785761397549749746843692108188603532114814523913283537053434380)]]).
Definition wit24 : list (list Z) * list (list Z) * list (list Z) :=
  ([[11852089489538718050497412370591090809284399797098271593925664457585805673159; 9605335489527008170326194081134133656114245679373860473182075384348016454288; 3335878162179769704940027527974301067456273623295195144595782335948977770877];
    [55463775194011380630519341519966098496461783503061503682191147761899681696535; 1455964400025895044085413336348504648736127498228747837691737115934293341601; 15610782944649497134051455057367868401302231636437773347467276510763012674172];
    [48725770576057524395922610931165644107855277515890288558662755606729480475579; 32975922968912005354622333657196917810108778528728474823338263327423853097124; 13714310387507716744316192598810154988488124235646335388710464739506882197208];
    [27064340452433824408075231212490175399137716169065836278056371689335065722963; 2080101869258057701586205518909272057701129500290409590229308156787260135379; 7617504269501289456628213450269702023310308159169287208470422238995199896577];
    [54735226163646743872339795177233226952890802639235013584865684982131766866604; 12112292159544453822197804470421749757728387239921682189118721670263299221654; 15405726207386772780928147108059561617664693879785345167919883258495555246163];
    [3235134023935946813960854593986148891597252708842439093051900113464250020957; 11162334506669323211515732452390152801285854627591192561286652879977420499071; 910557834692211157572990849674203825586904490667898051242493938203522575885];
    [5958418225845540917624462516639059268261615213494792378291789379969028156712; 3130774219059065435604891661169319801466200874876546356390849026846402479160; 1677050891176291677076028589908338776505767851091641627095688487561515955142];
    [11143155699431656097381813171938507259196561272355038274301729945349223173674; 600892807094788646804883843784373634444453556290802475114753217474785697455; 3136342312325034367849216792364853308105198200076651904929795014618207209567]],
   [[3047606020786028284132832726733152544116871735530526064566846233255159694164; 27659277246517583802849237030891922618695698372984029484026220602549726330981; 35986836868184163918264099550527058234894664493983142098856595065698987991133; 2727055226452541543092579692000023717044468251837253336762912180003299763452; 46707795992766967192735634099763536861205506253058366294317555909770187083829; 33832270418074966342031444252888251552145831085777608168555757365101923142468; 48502767221370469500209065887128822788033978008417769561296687886684221601331; 55769996623581524225776412107156542581418790696362582451682820313801255814497; 27557486674667045056048751034249967084287049766098855535297996685517606257386; 29032481336772356525207354655487668711249796502220534749308531432419712340179; 10720959124582803274471534549236478626310841759075224195460960844071199092695; 17656895712225843681425216468651522890993350356847733000625937662284656319715; 564343553897115126601939950380140178109990020040374918112262144783960976475; (-5121834880579294513340518369190228949242183768240844299942588390357577601024)];
    [53552365276772365554195944740419579336567243280359406876316960824458060850735; 35650629018577479097518351282106281449357234554211723107920870271722340764833; 32444918285470424539205106728897930942634339834436080170793594356414240696105; 661426121322961902113870281966786028905842419379327500134953592713386384679; 34882124826004816944373687670498862119895248594236296333666144775864033303239; 21143746931379510174633589382463468759303801991245371502998459122732215913400; 7832145274789593354536154136124864283871661050800038094956407643714037856188; 30137803710054613597483135111050708475686674070306145243926892105585781934228; 50178006714338327919690628004884666743651918766189548417962731210089349765207; 19547927618505710366012917405345962853576923234193767460823129224700069145512; 32824374892816941684850527459240060364332663529365034463364940514314624295495; 32150531072084595145558191328068517054899358304031580284732667396663942769110; 30361709954799863394812746726101497064257542892343330977553339052485915293084; (-20212254909265484853330767106517225987922004061976760718822956030813476445454)];
    [4540268506733343188936218306036274493398883371137067909932234450545784837367; 26524790429314500794899586613374338447541369717354753326410262160257197201702; 23406700110599903500851547228943041375498653194596040935520444625772362499100; 11622543403280967089193736687543102441624550234456268488846904218543680543235; 51712718954391336162695195435459959113932893476733287337916482637125443983883; 27252623819308289073306274178748983736332143449745057976046837874420833167656; 42776203465058578726977967806564331959906451941618010585407794267171621400630; 87549827477441782612868691017026981545708171269263620226451687202933409979826; 30627569269058264281221802383295621046441401940462399807454802457814883814765; 20906853178690056916733547164605529096490859632710054432816511575073991923715; 42193140210318875535991744164216701385956085304134245102354715126193195457306; 19623988315301209804239850120738827105973234003491085241481918741464002003681; 3308830282947491374488755280322813359678358021987014479559046786767622433078; (-19330581372267338914568726103168279188309310988841604042379757374084125371057)];
    [12865836731680429964870836876539877689269983855221154391518173579833909670750; 54505106968788366538694296953949362645181563690709832428447247381558104164043; 25853102212161650509762947949144261941658578598653518412925042709037327067102; 985380711184871005810626531889897763830376098318577381485643597831704150849; 248338324067113356773089837295248280324783721425855764297080191390923228382; 20276504380312913047628668016768361177786500661174587796591012065947588093444; 41974154301559209776503089281154165134654805268090875134482197198859729664513; 30489341438724889239119629828600312294094508903149823548675462900328705152731; 56340825899417732802746280902903151265569697944676811305327059841495545351376; 110893863606615651845663237194228285419735144021261303049323769533878711812; 3409634337902861961773081582189959760414623698111847216959297141232872509553; 36099231362822065002860999192755701320890682715608969024269483256980464861723; 757699407535213463073269857745676202138007851850757038629554923943467074579; (-3209934038429252673049907010731069620225583324308545935399503934742610526780)];
    [27309233825399062195904921979329113981086661526986937618719936163677276457174; 23664340815210348297365347644997035152878505257530141761514215389790732085864; 29452193545395584137373333989389738314588725634735028634761579527583258015518; 2792290220248042631115500010661045082052822116031568433920764554555643095368; 19465403594672375017400146558935564305098483915760185071133408906651983333542; 41665665300814328695583913406009281337981623598542523038147095848452326484375; 16592590543854142741155649847081007866635784513496544050274881837532875668783; 66122382376977739630653477762264104429811184391667910088621282437831250927029; 23987240362792209252476732573214039230747804995551320225839240158879758456202; 9902210727618054056983470577666356660087271684295369358991059574812343064146; 38333552419729628409117531371285449501412830545030855285412772361021663755741; 15369333441400774844877152924768632388941406296156717309727433848285236388581; 18081717901177967133756280138281737613926639859211956008912634436539013608365; (-15668397644316288233537736476800608722514420467557756980122276707932878262580)];
    [3893115083351436905873278555138652971300169012092045419646561460555609943456; 46558973982744083198660515712826007542465058910371209402946353543638590221192; 33198678238133259338816408072891259189712905464502365337931876029997490864780; 5926960533033983332561713557704339305034849019979527430132045185821278119514; 51888812323092193887125909074941049348267394049578817695121583913778587025483; 18089873753216713839109561298076090161877342598196562998033261721319548300417; 8441319753529422658193161893422259887292904277487754054387372240063897646712; 50028899825019635713177354933968664992665820155460636736015500249792796836648; 57763336912605148332229121390923554683504107906416339326524124533701263728517; 29754018531312039334287289077700236391744479812783403727553105726852596758427; 879807613533980731438767730887124435588710006912066892473822359696406671185; 37010676187448706608575289382649595658216451036811317312964904969545164745750; 59161075912131293490071507584600895868938782439036441871711522049334183483; (-707525705048729464893911576741729486158724991553838971927776650003017685459)];
    [3446437814019273288244656713869208063996426786897354522951255709425681080283; 10094282458565215422345041182173095708589654183994461384883702800600720181143; 51627884592065709105913075338049288163563781426838586696294158752299979457258; 844928114684890617421089614462617860027944649394946270329112239474252133454; 53644307837397192209081123751176322660139789867045754167146069250766718804368; 35591355280252941986889374407954645149249754133786358996728418664830927377320; 33071609554038755197857406866501151486741791106635935232593146595951378535658; 49517078753974649923675285311624080002035644119115457938937303534881969815214; 37750060621306739924012321867572144074449604511597711682636266576275398584711; 47836465380190252501128017664401331813102065762414227633892125515305892525917; 7340412131159597059369710537298394337780378787770208857950950251774184494480; 24187578910574580497233249643997390325347417682027843557114643046977369985625; 436960315785741753162017786214517462676295157345188089109966009302634337959; (-1279814431231882932927795253737587092941530321861393114297164927351071342527)]],
   [[31939359117020197840802147548248613491855705164334866520018875597215644469837; 5143524954389019660933003987155034079136925677085092596769778612924203694283; 46654625263798929166112711111032988425879582132371056553558946331209977188010; 205159673413579927733868196451343469722539258248554368569596680568910079371; 40438147356008966417267586996045034876629539454865584559931453138934801812358; 1759956816125223928787518033115225576954254804658050636412378703254421007959; 51483039400013110066358431946611083894267251799126435642365067356886660527767; 3166902103728381150131153917135316315565701175488209955211481818772902482241; 41039335505143927030403399836082737163246218397505472841132586429925492028508; 32586450830682112109826061648535302686912119591585975278203474437647197834528; 51679566710868134962940368389356000377384949655314810026101298811681389444296; 26295114488053316716708834302285188759068753432984885960995600867496603250556; 28509931050773002302353070846031386543780415428285728915654036888621035442310; (-4591248724506101326711441385069680588215516938307549452290893437649233609297)];
    [40287080223966726636379405601042607244208169249453644315622817057698743805842; 2817805398738675861775100282932373014831073238757293947729155265595857783030; 9569640464531036239922588726715504067729670871832691643150665024356241634180; 17619902491183782346296872089247700871446619245891709892038862046423664369561; 32311018459251225295186177703955959352900030681985421578685737616709203175122; 456954341711569498581657947369923478129505980728734555649813162973332006883; 54687933619298483119826208994549760302603776643381681879910874515163944337284; 23751886680880621693858826175966528088207215148752566471799924297185615408684; 42472798615984496948310781393666013966187719496954594080260571482094341432170; 5340690054639979077072052463363285963779157657754737726562149622427111426710; 22741377994720189055263588977240455285170359810152729935535072592352961540941; 27213576645152067624525890253178654009617836317336769364709227309903049219541; 15824634061125244023956613934271883517961962524745361317070431883411854558918; (-1106824794515033692678499506324038884574962611718194568500010437838791672598)];
    [7553305694582539809762883705165465231023504042559318555394633901329085602098; 8919006912349259804699804156249013133995630522635765796307871162848027888569; 36575439999813305260542292856013715549142808434879462350223282183716929963412; 28033846589396759376111532815626228289540446321770809441173828093965468392048; 19248537205493333857933035031628646332621691285852288311760918597767538839515; 137142827587948966522377903182260900876053561510975850956695186377685140365; 31721004532041122795574528484074797623256433575704064876964309415674025839774; 32092540635284248000126138384760369464681777253336370521206322303491228262890; 52435370363285174648830543117964263050972216359547568515309355562536687295166; 12160134984710346094162188467644280447383376943750447223455687731923928705686; 40569141824338126309176234679958884710113875183793107981266428418007173696051; 33596890640523201138769952071744810597361129044338851475440474848170791002371; 5292781777830581155367299850483065314640276596536731786507652979314555104701; (-6249761252994829853944295345081411485519762625760783387477519918435410305973)];
    [12426881472312458653075942369925395774623352107372521499260018286178672901380; 49090010569142864728247038097738436662825265898590795834497971162336534071909; 3131733911259037806897760270212440156307389297002021268386177393923530318782; 985428750644336733203047679634502576172085569816150417199390265537647613278; 45959205820499408648039400719720521356895115322612149689026049567846553491266; 1373991691945356241573482215353374964555059067128279995561316747585164935755; 53144003578289330773691172091156218530384037053070731592921177438545560183689; 4686625561516179684625763981146584192623577349520452581568350606006923138800; 43494933535562218241523635263577460426981749924188410097540555124228087240908; 2486042083714418943007760545601130414130497862535704358569548425284522298096; 42827471909240370841141640449508081200587726025610128420639872173923023172483; 27868488680196215236943558487763063859955635225454173796736754514072958269893; 9192543647505171132063771637688528207843504518945908226931663113569908607171; (-36313379653516785543385194161921152344741976717674137623345846232449284856114)];
    [42790859572217979019765045101599520864945215556069219979855244263031107341291; 36352885112432934246239472487536406048567025584781430504388550720719917751211; 11896146456493295002120715865800792774997325708000680367167471342502074744531; 2667321820412158327711061505468910888999159243515713911922055121178716456081; 22974706924336163302585693345786882058478127446795517587800439182518558036892; 41623381243939850278750474939564795415178015571948738252746524748459472924561; 34646931786351471400904044085377439159276449709497920612033947938216064011126; 65364189062761946916866788030559490863281784040558444324552785086676871090855; 50055650468733287292061893494045783275311899401185295407792111482553359028238; 4720710718100319680185310291771118494068436242217864823870346858545369496286; 11078560467842868300464977479986089283480801738794837220632967840016483292360; 32072133811336802482638410955635420209647223692892013409781155381309873777770; 8188143566011666887262656571932408269812817869428588260170732445316584739052; (-6956220214201700638451581771198847765749550776216336304130249992345677860428)]]).
Definition wit25 : list (list Z) * list (list Z) * list (list Z) :=
  ([[34411454693318473194917641548200099393007202594856093974381551392238794648136; 26868350197964628891298858123233418964957199438224571667063596360156163270485; 9685416258593179656492033248208737063880941640706952493373019955253113309639];
    [55253831749873871087481078525167879909605366566753564031377413485203641221260; 15086659520616136079800440146611580172417660280247021421299075406276182174046; 15551692456747824712900087559514152512818093573487326341709994142877332122208];
    [46553433300454746278268638775651181960396885583457483355647779084204979704669; 2292474784381249179785256115678474818645179330216088025998862136141340290132; 13102886344095904620461191016663645349167647082339503723561245927042191943570];
    [53018687486913924840789528401932501241008537824354152536303007521217706974773; 10487438206344976238233047856737378701558803753472824507333630704367599378869; 14922590816677464881297951856687789296081866497272726969351833622841049739811];
    [52403596253181550773191245393206506603726209191343379133974353536431939205802; 41622170487146361285430864472223285616303254757921521650459201955406325208259; 14749467806075230752035581076430256703910708887843462224975077363450555834524];
    [42897240846153953168100308322442399119284454659355470240505303327560168074834; 31130126566578442298334394010087033960147268620774807309942657097730792319726; 12073817792445678926638723704187838142461960328727571572303384734839399631404];
    [27993347850580799998720137559523996852221500058853296559269918406257374348403; 16137531821843141756565756698722994738741828022623522412183264194160146716373; 7878981833834340860685585049137308271887569641603835807667212581196698561525];
    [46057629397020633494619431862152748444775811169721530969241373426501460542600; 2520320456481578933400808979978955238805163487033937497779125391442908536908; 12963337835316148910868671812072055609150484750842010968641211115818026521958]],
   [[20969485815323462495657636443776094956110890594908637836836433528529217248246; 41653759202517735770752925280112261648826021528062044528162964546940673720459; 51020554459315240441118886140810531891644108674189049410178578350728367573698; 31626645222309124820230751461460129859878091300133562443080820635125419783667; 17691729789880899405755888894781288231108653866437787143152976605069953174650; 22825950627581547310048314774951265610109931163285565201187229764163167529179; 21743104398516890813139073123304111055497183064698460462637073732362780404722; 108189296245819929912876782482878233399902421339868270978395243119600913853818; 29604983660426418967788938138301057623580004065616352672449260968761045247144; 15590734551375807723146380294413674500579583368604527720880438115762025509244; 24567219949223756676422495258314710266099537525069019752703190258298150420900; 18968787510467521662863796562484662494420620526154577059990318896156422354980; 8898051216458377039495490601678405973927297345535713601703327327055961110328; (-17675077300712059984718939953774465152871483893193860154092610547466791250961)];
    [6399565792759237000123633535459959547067053156100958725118445163227673694027; 20739723084628151488684997175307858419571991337085139498565670527187153275331; 27643314380517669119728521199550674589378218452331364961040445772313333681529; 15498508209591064823969616914353175063913628050267137428096828597762440251293; 33350745636054570255119873452380190357213757539678302525824256679821355178559; 26154365687048724877505907455884124295198488118312808756742796303498907542210; 54072938685782493582615447158421578745767739310007258443833534183815062029818; 85605815520929722558442191117167579457056283762925162330465443904128322714508; 38174895748015178174477496992164515213548732840523615790476747732618963483459; 15923801919708800752387451482536623226001163976295335044105845614393428739348; 33140253115849367621019250757087525781720008424011686500240838860354284636025; 24459783325140328560085753439943655445828674145472181784118939305116559255280; 3663173047493895494131950587956051962173078608931366829217903827267998331628; (-11871617087218068151694710487839970563628821063896253756486970036178330897568)];
    [34567659236266541664425571443203715175544625629026504005119274300287719777486; 17565007401280625947634034803255215739402290558920251353754636626495256586789; 19094260912970952950169505355891173508326102044601887947346664296751698398798; 4729907249533921775497216663292367219006790247098864154229085989879579330391; 10183955092211945272398760132695422146281825528652739011308762236231579929383; 13022457328910274112224781313425841313493028897187244248443101327938427621442; 18364006897291617856367030315523801915901240925946052036357042122966928889238; 37099338374192331236592586049055069935744130523452840072546699370800260654422; 11046134453550980902819655885573118591351202241176647919911359921984722455133; 3358693964976101377621839179690099073745721293282176406824791126064631501049; 10114997286471379478275242326183303583143914103984911577263196346684145311546; 7077584627805358245354546665131199018532564321264162449630053282908282009681; 6039303404533812899739053898547412609528971819574018726456315281103943831965; (-3068776172380275227464254377049544018751909549672050970666016684687359117114)];
    [48149577081810524199352047876138340815927476283216311620256455397191098115573; 50047356294632028239400779273397109875314202551709469799442323127172933025741; 33075449370181082442550741205876442560958058415413863701104622336477922619400; 25548893052405027949019590623493852568010721055417641463074665464936610261274; 35409905453817162783337603752348439078606367837330352497559090957170010292893; 11029055616210568772245229174927273563394542784173803477581392385494228635714; 41489219406585191229296427434037236281654089417547631704196563290098231656330; 71265221748194835661932080176641776016513339102450539239484173510446964276280; 6673982357611113457891591298665650975655920544923918306350922387341748286102; 20229335920181110728316109596496626268175339530747187926976170438193019411802; 49523295100901571421076053025831762012120958044470727275160738811527630346589; 4276217634241072687603266316698837981089682294803347291532442545207584597529; 41186331994045256558150574284021162215540687779745770695169553888010524632117; (-42809660161141283289879952322525401651870485251318761486078191313027716818549)];
    [51808273444697822950273932111070989007894234935185660766491578197924777258318; 34788096125360300977988185011840369022780177980234696526522130816395781948556; 50790368705681142309682297017335505516179986992499402271619894450444654712287; 35587263429485624235168951228047247309971663249059126016132578687910817250344; 7529200131884722745878071812092457536352809654842060153139887593442189907513; 31424699313110420137901412500326672000656142689584891743598136271711265722062; 31650322268040128292113751918931314518233098874624145795166088389858078594733; 134234956380012809796441277739785487249074093321965589523737434001844240899355; 1405409101376198624472371291490263325349814771653963950697775438325977641669; 6605129128874013042719114795897586044884700457487279211002890684514637962538; 3404124608697928656539911886330128835153737718956282497260977200533090024013; 900487124568750215925104006280501352289421946347251983106579359021432339818; 3046180783659464816059012748525931311928498573155727577293369170213677649931; (-2045442221314096503731104576858315849562433936865283306172375915827215757128)];
    [41896298508700746337849055730280699770748690623146940262252985195830235034380; 22300281782611806144358762417114932045846655672745709826474787549535869334051; 16654269224261665985090903699399555462475201567615389719551694877590706998535; 38291399149168986574504441931184456884474938561706121666634808783165713547647; 39246069968015402840086174036754524405734651277303712693368926562872718089486; 21843420738934895229889261992871634326048330312533277059522218394177416054670; 28517769954299683803013001899999086539860595993973017131290933942283533359095; 118377015373199844075301351514610462353502108396793338766870121530730626365497; 41430736510540737395460205192133021268062283077779978167965371330741592786501; 11289451974598265584833623235763946660621852016033922802410854943861950931441; 49475616245873217506552986831707158990974619775797852578644673758660319842925; 26545896673509470054601123532891109044036914810451056154420631253496957783370; 35802880849497874875907003795114527716286849385293958141181023228953018030494; (-19056918152501447224658898561400189250873288263272934797144454851968427576605)];
    [40530823640519828920562877479558932586217792589610141719579413046844059582098; 3600138672136364760753859297858104696578083065811637771482436480282220931554; 37299361062559358672447916766369063046570692329586729118492230653385154330096; 30965476793621619517126463825135503199493151466571219507602342638227422879716; 21852532394472873114271634750805642978599948248707922039006066464209634750494; 14002331022055887447324660397590683241504748648214262382546906479264818745583; 16311390932198996962525165757508379575723028639638951650419136066309626158189; 87756560809440217202802910759072481896024525080387407123636128711030499444977; 56392590650442435937654103898910886089298413907138268338741146182115398280251; 14078431459029962146537929508519359320652406748375181345093906809351529653977; 52083606773045592127059317836961367589954805937572827338273426336025321083083; 36132398567843441006689014757118653733099287032786182732616885988088750126878; 36461756491050304840958372249209499851820441468975935218543415509519021411517; (-3238704960987211523441890217793101757689786532648469091670968620579862995882)]],
   [[8052411590443323046063857505346512836591875031559018663112205767688612960753; 30730945373776092329581923858915795181500895931833186559825761766308659256288; 47856057550424426998179403152418130733722556984352112569851094685357459287252; 28374091456491562591592376574527999374344658327520521763327592262348972403248; 8713783329523521260406139027869013835375459183500839056665777939669441909135; 223866734661781372740905961284591708709870435547670838775809767072218345769; 32893010436673019824253420895904733605379653841655449525542035470116692641689; 33638599104116501831134900495770501560664855737136067597661652812307007822835; 39738854060471854633006938520407149392383772214123986821402415843191023696589; 7202690947996438791648811262373828334921647093683699532402681224048034498619; 18753770397757191974012228379794837028287894531969008506543475258268547441831; 25461857612513630989068892643452890132685195230812514528811872890174381111136; 2608348793256699864852350951541884461393498922277203009068410263457027920506; (-9954412213163263486416007790701341217518190394591655788249412365830442665423)];
    [2961593518592235479541660903798251731409879313709294688882094570300481008622; 7326515770117864061036274403879279795380606332813631628549954406506753392075; 42183121505917105132785846375801893721366588191329952282089584849721729597153; 1119961352264980447812673852841068962209188978931082932564042857180781202944; 49970807359413853176514535597474053087765510760370301768501427548821656760002; 16311839777421725812907282229579288508917962544752498882696277640960009623158; 37924010408345104313351823478970891515918060688465502482543609156282481428134; 25980164747374230372645800379978030688038714500934679130380954565673614727303; 2496631975070097893879204053424703824354943007537490440115032252174557520188; 36408784960615644383439646088119497801561830772774908407058754314595005946782; 7787685853496748043728689221672159366398922569040349486411842699099927162848; 1599665852551982323059468972307158833425850953862090208103885549112057859108; 398368491327222935534902238220740392886777320982324225261283668386567839351; (-985500885149935625424127355288095014738723435479013063513428724864179839320)];
    [13873447291406652252520850563050388950183115206281801793080997331555935436935; 1854536341069985929930670263463272452350782516792606069220708092094686818171; 47329501559147408871372794817154684380612430031200025888796580383860451074822; 151496293522975923496959091803119072402717821749563921078255486098246194038; 36405980202100538729091501865317811009503048095614222424073680833516962653257; 927141632616592594130103904144390456829174101388465029211097344404644786032; 50896379961138288525886237307950147405005284448252160905612550097730298789382; 1828193850436760420842611259953067427360186353200058335997794812466331442423; 34807722228097917108313988760643672601825758950820409642799359685716309597471; 29761565027230080567064703484396706261447891907729412989661608886489839598867; 46972523261611227569504199552507080555525610397234478555005892453613076398383; 22302335790536165635252387633652602186932479402718960380915161871845995715078; 11255878184885932204161117305837289992416498075103988835021673903081570427613; (-1504632172960909204486825519779478632397977570233084311197140802780797095149)];
    [35683870257730746803867720629304493664502060430583742471203159589065530443926; 50775043548393519406558354306624403249930347495645611593884363718324007436892; 51291137343296294521250425067481996006884473054760103561201450344503494832989; 3324450590971989335158067912029957291830390634528983964329569999414911590564; 14359762909277687296481383099656167148790911695621313315027800872028812018760; 59404836081684066300972338248653672921332972782359984505370328847803310069; 8919515987651710146074987275132885460854763631569132417469023383140283995765; 4272648861814189056644406283724806092566008347081754251863207833055350425579; 5186762547804431580615132166956085377084542783861743644884358871772180332366; 12721569779908134434539308580454890588349658668337449210623746559244478407426; 20964670184639490487016450536518125068541430973681491773555142531481882005719; 3323311972236240723512342216190732296373888618972779789234134399495342312639; 12921445252301434258842616370006416372567973876509844317086186599520872482496; (-18386092670305284052998051011106498986970598657382881509161609324202378272545)];
    [23139927176256150527684160377093795868379875726157297905712336211350061316827; 19787356133392787962174279663620312865334398103860028544644614368198408192057; 28214224555741930006956136799562203397627631529290517019245867267376111394011; 21993533495381539369360380171125396782247936956050031490483113033438450486285; 7583910163905465580909845275236752024895770004599030059167248396548950233265; 44529899483157699907212302116636825157405872073373656932401609300182094381051; 40552915316437756007776315732049131902772208484952697191480027108662669783761; 129113203255439983659381940301839264467253568337315086350938596386198462760287; 30229621031888763637048329917364949700594877159419431894027817661955938152562; 3695833554509268991162576923490433339395743957576391830596567048725051876797; 37265730226821633285739200980018502553903130808128795059650173133129403659202; 19369011125054563882482390797003145117862621019533327415209989034222997046692; 14894390269637853699372555998947581778318516562366744079129825560051255257404; (-12736453421403887482327590058196216916160923371525401406446021456456066375417)]]).
Definition wit26 : list (list Z) * list (list Z) * list (list Z) :=
  ([[37492465648051618533825547835386104286162333036525561762972543216307660676529; 7908622824810293508935112792281856154422565060492406720151709576813309188890; 10552594756562060272157563000961334762179597689599241669909685285118599544711];
    [29906173079972555615963327355241415527690010128450560076087468576980258229034; 7070199091960863472334564418805094765188290021073115557656515254086014977090; 8417363856382063966211169775885514715123507856251220384047632649631877129147];
    [16384512872641725553594613026479952045523630828675127898264729357765149905606; 19402648868619216442177267440135369949709723464064505185488984306887745514380; 4611569861840968305502719975003529974248444216931197538738656585466028252490];
    [26362326195737526034043432830019985151828598431779097743765684224714008811854; 24806337790838777627104165611694126020508072026167745242171283183936060001262; 7419915985130076122415328142876435253392225639848794430140812475063752550038];
    [1932470510121889203243780379128748110820960190302652482768407415690595414821; 30569479448113250268511333397881349221018103719214001351147366258453367927022; 543911365119375781860832239926395626608526299514441434911325625424594787246];
    [20401445776773797312303886407915439408038615702336319596271103780895141341233; 10785828549929981993713929148904470272905549288277913505337990523297301538319; 5742172087352603974508361301864582603922824421866461692294541432059681588028];
    [8984689746945486426798316813537077949789006717365780559044744836716087365430; 15208697106002165946502719372392691351059053148335222572262019994988728529542; 2528822478707290756655775327229987813461236056330230216033470667142058551622];
    [34782882161546596556289583216458658636674919096893127205009667759303057339251; 27401869883960135565190936714372981375982439096249278872965352070354829240027; 9789957890782976776367929311922889766691564854223926553090847588887395784567]],
   [[24549719963007680681928692870584034485287122306592054951194445691864392705843; 16673777245026167737749145194769093277297849195567740502938961632043379444908; 57260708992852452255793988126704528033845942978600309332654055572069848189814; 9248580507516691827422618132675350719306694661393659692677847792873461285135; 24531743224530805707302641156149249650700015194681938552357067575042479704110; 6762801592555360359702939673522136045498131807292500346871102253602307467311; 40985294276170299607176739944938078403600639580692807371498625571814519607084; 31828627749692639204995783390761199073649956589670973479852369200102387130228; 53905201452339676958395616134162531948375371787849546288855008308243117976982; 24262538470798150305268919586021643166899503225550808550195638531794567264342; 25167078850336451163294145533788675543489064548901911239431804006929196334244; 34538654835509834442586509425300742837239673431540540339517138499408974256534; 10671622597575188885165475358387241499242090229260714658438062266690445425875; (-7247995427364401308712476654147374962207626778539649967700491236356086469832)];
    [45968170259573972443056393329245574100803882139466088305791856455770116138566; 24437270795736588119463404104079898413744832968735996990301879504171103178011; 42358699138836348554500121098455217857618649871628820827641707929985210867395; 9812047366676331289675015754993251275929291514449424481223066593458207600534; 31745984281985053740095245275872789498845464641705026038080754925074341524553; 5698661637583916350244326534029265461423439468606673485709508648109569046447; 49411003947741038770219764763735694862069010724633966192928799073524258102777; 30565347863047276099661005420343384438119133355983115636400741666059627403743; 28619479087420516807970791449824992004566144568166144469983505333808037285; 23226432926878591941131419380977241699218398149718786271661876943717981870350; 27238663749696354279795330985235562493201684576496712689210946093750738627814; 18337345620468055066866364041483300607531716336621503067065278371089750189; 21626892495619829304844510184091027421672078929811474247940809901620756723089; (-11497134330154722330204752495845343408254167019021893173248368561454271360159)];
    [27160183473041357485053081342659997600272991901793366107032838553396221948572; 52878466045321014791225548726791844262209165286675200816611206489504571768111; 51788403409593175882851191970693565928318035235618121784409259719250100661382; 18372586922621791474947689916717749556302653397792389066164088342688037396300; 7673249548115665179699923175762479211232818985625980526137207568126670359230; 8352020994670264731101783738637451065474366105750654273733043599044690912953; 2579586471839447952853646437358131236102857755450049935365058899906364141348; 52202431696829719200729014103367123982519358223003747396546580376301273407280; 46644089090830069300841728737909119013193919594532381070491877601993024006614; 6863773607985434846862550996618389859427857729826279074535984299629724628054; 1054648210346133683622554368251669332845222691662351401280069262259866894019; 29886245664981655124250957241659176538010060345468510235811108431799896326299; 494756404883736944183525314394126848575592265537943963038895524747965676496; (-963246797736753375528349223099651825522365080927521314099380686602440974890)];
    [39624669900284178680504629988549412083219852843936168093588993478012457606263; 44665405429268282736127369280543410322579913392564751538574027607183085676573; 46978629247898643276106584834613189836346717979157693220559220992066644950737; 10855399048407389312798073995303833648888601362682285987439009746219646862543; 6674876927358885802880366606974492600501842046022017865810046332211522752038; 18072478807802476154193664424961291166941404410383977784994622541270070444661; 25265478335816694581102079767979751688081057300104485144951530857887254317886; 59345017543550340859429082420100799206905293438865068203853277338313516515414; 36320471226963896974659775717131682985193487642273529122173354439208022349020; 5416200200051144560486819928236594335449785576209944654156791921052023911314; 36204775667909529619086858522325276738423390573071068510624205315312150411662; 23271598758058706529840734601523846819249078042784614951745137058080822762462; 24778934279604102395193639331351015349206817144134032748135864292215192627642; (-27931113331388878332290333172069754616532982058821761172619870752796435325872)];
    [44296425817054195200470761881275608649673426089175381586828046789438305214804; 14097227924324443588978266249559516576527822995669141253291039701891586165041; 55832249387380780588954517575293563733286850212799887801492635410731116208633; 15837212747695594623527669475934928040668738153416473133233551512368106234532; 31343155227927688030767934890559040537917123093444021425111946885502394070923; 15265469167931424979036044724035136497477342278512353110009583744171654222162; 3045198693037482464346693656377038001729773678289093308457820135960926229376; 62497256379018148147658388729823518950213233750093763055685789039147348316752; 23124041209379241612854839322470801543768748350935748663132814814611167138417; 30225879346325654864774136272790503273277136341544738338412045427712065957258; 10690320720810253764188691053357281017294323410494949771833168811249501829971; 14816256246421833379334399087528243998688974550796412202542358414618821480736; 8179194310923280783433758659384184503618417485354949765395822186779408997732; (-2603008353645342795751657259245981477020405800822651091236581537846190672974)];
    [27623060321618881159481905517379337114817128186373270157861800370908080476268; 31876388640096688570178119227525021180390303082820175562572942044843127733891; 49807591329599385587393139215727203455356751706980303989018742142267486247702; 17704423062516710739174010961326468819705664740589450157174964922774673816094; 11481193575203987323777923418886274576163111363601206527880119790327913675037; 4818064364665102604665504261548060183259520085679925599723775619252542360700; 49405317614178650436127991220355606755966121122593683163442730446363769820382; 43296237837185117425324044180231612435854136541341460721213854803173524302302; 56016553515059178178983218863392675692055142548522837694072411412292415213844; 9877196297888242899836898864512986531865228364619842741656341188871703580370; 20909613248270827762484196515604658062977474416750484622918133790171828987074; 35891460467726712762338178509162592947694167946427907652437121559394204033954; 9976286149823918508846863932515824782260369757249657376692404292205354076893; (-11512409225987016358331223246867462452244597229201729490828966680337223330318)];
    [37856120072487993103046293427528509747584933905590469886836303938310252816138; 41907619650366185306472763840058597947456791674841048099205789966501368167173; 55220061400184507789390309570649764618888994719823129960801573669521805685052; 11040401955569842356212259316969406995520896990451014835626243699760591612616; 5119221764704345519931317564483311047180788138403590149457366787240551217539; 10894517206185073919053090893533561641244243482865855123369461810227125646152; 15860046319186202464343511645872241306426181441218339233380225245341645294935; 44116134688835694439262256471019065811561510830881494702053021325811362225929; 14454645153978870882903006251565103591266172763255017243075346049949975339270; 4882608855753069107411125585274168809568491907782652584701070726658382495142; 9255699345013553914972380894619478900573013156787284031991228553761741563514; 9261518114990407177656073614163017198372219829365187227195260806830588065464; 6051965519709500239361434963314395170759114995733254704833101415705504138574; (-6699668868639229393522790350619631525915032885187995794161537584344575355660)]],
   [[5271310448468760027556241606065118981650618947678734090383451681402688537496; 38322921322667682108538724210518522316510401542007702908860411594861215552289; 32015329974993695660875235913869052494050407203227765443574709484274448288788; 24752741510786891760268268193972537183976026845756219321364090160593156806544; 28682907486664733846621689837023446225634579162281426091530964528563452795288; 30334517605262685563003455690424899858556401690367903126165465379698990967909; 14471912547435427196505107175121908139764839893654881905667425523530886122680; 109890998883969848453653597313143399794497306728622680193460259681001806254509; 24501754451737604100599690597408808339566550802183211190855293756376490529672; 15861061906323239509498488143110775722015060705141569460344194122245084742328; 54563622130329135897531946427498347658219164291873942667685047048245569326448; 15698997816030813272913130048830434584114793514903031482773531017526090438088; 4967900542021028894491921465693672652210050865775662618776525318928171411900; (-36117102847929204221242806791528609554540388380821182302336097131403570989191)];
    [49943610039541093206875981236688209328479426280387528019284490530711483831624; 22141598509810852937354851269361079994039513123706616639082971256963153447234; 39720911454330520507745954286957326274552817483590655016127108883121758363496; 479941488700268217871213732136626320179561018310845278779374845730852039480; 9845586167416001259309972847776894898524331616875413849030989080576010478816; 25366953966835899869887314522070495287932574555041664047510587685175479887045; 12710972782099253900534545085728312809208345939118479360424476129607694524718; 32825334722488169320901721137568845555954570159968659846185328592750162871343; 4688542972397874862064831997837547580758790550083687377747842682111650374245; 6754790572444060049304405703848042455800709070046383191766740687719085275559; 28020719331743578463349511065163522550606506466105040852632672201410816935268; 3004087973741853392667334985874657025447138208963669797086557265661842297143; 24171873718658676656443615332536344354060389122480970434379460163022104383050; (-10716164143614372892138388299532366739370955481447776534739592892672619120710)];
    [33196521229313941830249722482067475324360707345569650493452339927499268845388; 57620529990923425496822897524864886162747522913277226656932336939082540812362; 24181125727900957400059798735548371478259511340774273079023818525681667477954; 43083499057859537136187421869726910633473252611052426074188244945012971626678; 20477586265698650888438450046847112893553304023212286620119359082060099440569; 8467769910686881450009340120131792825611480841604231618899142604678472016663; 16911781355014156027505259998062907951162401597591460081153134232743296938223; 89751853098596031945220201900746408070552300009041445256460259388526585853609; 18988810926759730248166562399141572934239986916705847394606324667133115648857; 8552761960792372837486523853834038219797142615835800347019227836804590653981; 54192505156455791200164143815642695341928785015258295560824332560334996782563; 12166692056906241443754412669316664623548716815641217214723390589206204119528; 31072980196581982606229259227149735164037250762859977097654985301711515991468; (-53934614863905849377802576622077338637269320102134618967573157972011127715883)];
    [3328635754068009989813757321380006922150153942181725940627502310721359276000; 30633975421496655725188080288034459541252284555977590204375606926334249901953; 37617827263304838530672803428437983656108040946896324956814549243291528829135; 19034271321760518498567110417595323031951689319942695950731563458434142501541; 5370897332519993598438014722987781206520038940620619447159593799542329933809; 57346326477110192262519572295635078360566577932055980998981568204751164514015; 14049616164195888420370246948093528082889708334347872708084095256462555446339; 142457690273390938780734456321346757274892890090382091551686452384397808144389; 25295767535195096799831630527545702151574321983295946301676584189581165774126; 3489728692771010978421899321447861260146041145312722215011350207449591275861; 25649114687873252779550703798893751477046990326544576510073836560207365924622; 16207745452354263072928137341367557174773365362614333453447948650393698962092; 1474652729259705605820743087276871284045221775145474221602316124129641228145; (-13571468553798929222508743801843977368884465039218333596101681041046546682593)];
    [7443719846974079666748089904485291504428968724490373092275150647989319087692; 18820240084665614733582602265075526958985974540311071192454258305129583587362; 3299594063019337876219360649716464722033838171318045482680697598452049118144; 191374316781724131486031140806033861324379878926707748612217360861530650944; 3550955284435919151317861521404468818723796626098711754228464104586423308871; 16209059812394005652013834636467512114452984016488630263794718395565228606562; 18353488957782695138722084022628754266203332636772475044025541536024789134699; 19922931962969814238396093402947045200289041307721443905695730784029823914990; 6336503738427920332929142737643077234475439514208847587120329073829202425336; 202374981775455708506208729716426581658362080083316300134884076519459294312; 251361221416581275098500871688004096689958454780666271547766506134374190726; 4059985114404587391329470206244686977574120028028789585044016018857819563946; 32317622472179503050455938636021946285763851182557655841320952239777695600; (-81709874417056482082848037881421553976962639234905726283474310446079091285)]]).
Definition wit27 : list (list Z) * list (list Z) * list (list Z) :=
  ([[51927089703120089390827029690929960398159411892872994731820667504885558299135; 2419726521315673367873602706720416742384607985349967300226010286534508191581; 14615350712554405841397603313466420888946549577199405187944593707669365791555];
    [51651609555056648992582366421136863805563130455066406645526471459425853146088; 11816606859124705064843974799489153687162211598415974932436575632737363156480; 14537814324489667516824672100055979190223265656003271490551250872524607656489];
    [13258715493420286938152671904577221353757151891103545134563416862271808934372; 11793448874529493482886225129918242462781647417809093623989090132668886511596; 3731785818196409069995726798779793599181857785732659901599375725606462159917];
    [36393382297814492117996974463848881225624462840981505770714647589211345724374; 6011014751480452802851575221116870922384591267249680299400036762257752113600; 10243247771820882317892331411734100641841468491826563572504663521813434509109];
    [27724501848724237181100996762634437491534401682436181199862094797783916615946; 8119066100046960944680599736537268919397296429996331356566400521977441034454; 7803312686434277267516171593868900740224089320051161285881656126241615904166];
    [45208987568069523015076900633721355870035632981284094394142224894259208544311; 12621489375732087564220451106497891302435240412240880190438614545506089390628; 12724479889870405422454041271194533480294414345923203922484558950561474342800];
    [45551306784946747714141235726641237436378490552351256679588278572620715447566; 13914231421321029389879118763320663445100746810205266273732020090387805669595; 12820828740516795396602604476378795512068655421191758040338475921299490242025];
    [57307181711103484913978958344670838160397302590097390606583589617596574352203; 24041857889326334669938780769218240437422931269905054138056424081348433520393; 16129626440542367936763725687989316505553278893818281557147012664713043020372]],
   [[28219671911848323914904753671285805609149653412232530035840302836498670222899; 24243187521602053364399249404394453944851707379755522787610621440283236931192; 44852651083870319408950543754640251812722454584068457391655406834410522829291; 957042325174304339150794463207591155252454541796403758298699664437052903577; 22788752559689305167686261301913401414235263447230110096811350824369109737373; 6117886622090695619831585231629341223662165157050263361619035881821173929379; 55703493812483607934719879429725666170006557151403992912650508660637619525036; 11914381989896346694729585108277765863683835669546601720369756119327243216120; 46094757202487342744627590308390501047330646239014225814234012952989776288037; 17654676997865210652667433113955941830428772680302509483048392006686157285794; 35832146094477083470521210051617103528147801195981934724884735993915151728030; 29534272497821090556584779663098823904333671917892870426812852232754574084245; 17465293412422364688564505288550516062965135969720000015757086638519749843853; (-15004227711782200651174166217541992148801293328857738708355004042669245694368)];
    [13876616536180315252062934415541468416695999842035678090587833763672189568159; 49204648731726712861137082635255199757643959791036415487203817378523762991264; 9482987941666511112894072211283150252867191011373676493247053479199993531849; 3628215593464337265219067914155860041078621972510520316363624416377215033191; 37171552993334178086137297726965844614546706731014279090828482576556214612969; 7880721603338700787761340777175342782834985626769996586600722487551689531715; 38164634748424808010651302612044083704168564556323344232577703136345346292473; 23799249968370680990672022702008643422456286148728325116626345517194883371109; 10578258416760371017133572362201602430767713045797710775873449300239745293754; 6088453729967016653848666503167533234984055184386525164499676289763213807923; 33827227732970168381252107713643108550281238281956166516581203832850115821789; 6777802630797056882289609533439300359101943603678599966574184572519761842869; 8107764024715355816414612822405213917874746587141719500005555382054855248295; (-28749059959659463750349002297318733919314835070114626202846354510844496862650)];
    [22555568212557064866549123416795664464742575236779214520260833312041161149073; 15429182496115485427702486987740166287248088253738720601278823588595062442038; 16822389682886516191490456160010982699840377250496426838713952621496822572974; 1784122673657153160901146744460378353575524817077001848941494400945948711646; 39156539819382391047266376997915989060255534779304344243939962592305700573345; 15994932097905340792542368026257677772460568640618119730930109870128282586427; 29117670954065981387535045926360539640914519797306354056399897776813943271403; 28616183270307922817239648520688739691090995603077687946810950502839241207011; 13352616247850782231003716048923744358752305783934335813975682797870193938228; 11377401959214890957461975042586643257737324379008784771560389880017170755298; 55061007076261831339017552753211367273657885477475509498175476478407692087682; 8555415642835366732019583816299134445831505904579760560702861543142463535042; 21451073370225964492467108269292138204142745282626135762778738896398455283475; (-14673650543750056519870145835706174764561079693164724444729807244659189372153)];
    [33905799299846950070222013096571373626917211039665183906850005617828568419702; 13863758498454719775193589483526047359797630222321450260444849995280139228796; 36838390032390546435638317287798538333674235783885375428738753248837904479418; 2899979296849591577101759055504834936199977817542543958115794270770817619802; 18752202327941535056788654707618695699001666541554674024357501649903071770829; 5015557121382916882137220398588664241212300567376330739374565357989203260923; 25321106325060847711798850295629098008030183223653436039924186896521764115062; 17231401163878355531519074777991487518412856260938867814356309604227678196668; 54590985415299004419055295779764426129083153247145141893817426731412703556958; 11931746769111556004362404881928635819365990488952364694224891119577780897636; 16004321426814498208985573808289870201447015129490907810559306035323243354033; 34978056877431935705024046015415447527597498162027185379091426535328500203693; 9372649095495148069088119429388732883441519976685569881090810118018002522097; (-3832386973142124037977837444939955152370784724856864093033461440363611177731)];
    [13945280774007342484990530848827714487332555517410796055357734790096565811797; 52400114697821094889502833785615240477661738660352387539121179338446990252639; 11062553532134156105590820484183829346785732608534427448149351615707290106628; 4359283485394694121457102111377552045309401368581371091298697213536038346644; 54326281501571748852195484007685558828817295906384054639157096095725255334418; 4506685476276127387100358374237894205898283634125470830664630913780860379966; 15837299873612843443960112994425285841620393172995585104906322954110064257590; 21670180756396909458566468063962693747104233553792880142239480460702455008798; 1479292528974016290578672791658391051560336862556031638173522039102109323516; 10380456925363903643381770422210176156696093418966297016911476652380905820412; 29509707659647140098249639321345066167394634378668180234662081715469410380543; 947826419017387272796512069713230273243026483327761628999202000215384185513; 7107932184024087541958000920870622673130787094208053414018315605880115150176; (-26708423282621823158390396062200875328934656859623015762563995732696176037816)];
    [26367808423375471355298989699198640321197978197778781662228453712633667194929; 30551608623224770765827459328595482656870175534843999483687175516101859392349; 30678930422031583904094103803027699367303109624227253102118182944199215788902; 1792950864827326359803136381859103019807468043332294043160343936032702522478; 28852613072574020936085032925922623228861438084419929889267056110106493504248; 17033680721587538755449619417456093875243434711769118858126459545596096834430; 29787318904205853149613423126017951931685582227205702919796769663200329131900; 30096923197398192598461753223989285436295591903677659191563566599472503044556; 32217121831183379283773183530513968655522755720176750001844318367995637873967; 15288908159056436829000284538608812134644599135483409756789990612321995977221; 42866793291174544300739808661071530039944817702059276293364772837950596700635; 20642461594446273667799866208482373272247599347117342120179621573628622215450; 19522981244592063238524561582866717697000954774112062804535761269655625303606; (-22620707514491975990672269671436305950609296536893702612086070257142557618384)];
    [48465201835125509424074824076110166267881717002834000111922161141573805234110; 28720162598540223712866654973517910055504279124955858949566202107396512574256; 27378512488205787682281666204037259970044009044748580087266226011269022239114; 3390120692615279444174686667785149670281011870095330351611278822758330847946; 5182710258244268333927925305685634580224034353279760723959233936898082168129; 9931397093689013559216667849049606938023543983320755238586058150776852507741; 56046037037741721056510671081678700179885220756991793934821834390805366056259; 25820922629357461386437379046986590135262904840000208465435622422139052063397; 31655259747175976358674132433326158964219085603178564337197843398919591976535; 2450856504320929435854159132644189316740708981910782437802094767420160014879; 45911690890100444969310097415752555286781587340062009106707516199195993765892; 20282459960803373473611707410779845824270534234673491221099221492962510418117; 38433011792717948979818674745013518158216515627352332944633482439416534234486; (-22775152192567256955195655625297909472294373360282477620282604764844205355111)]],
   [[17155138369190359334006416480269544641767801292657570816851467463390508879157; 10677716440341152328856367122445213787758363208297061562948094669842407700807; 52185777134344262511413022283900714373562467234861385328333438729361639470334; 40570574456177673041559493224496399850903490614273849858330436497658426781534; 56158153804265099845259825036067946039328896101432710680831187700760527102312; 14247048224444091254443747783284719855906190710081223215868308714218008969976; 49270160504842039049274286496278474953780991518028031163145429653445620817205; 102901338459274433635880802546217600581655543864165181350311593374573302792299; 49049831912400054463325277012011161554434820336329818872701681380040564330753; 50619293908743917445321126228891539517017671758430914357357497735416275478795; 3972376669920837333846802752167231665766428866571325352497748971398887631977; 31427676152180118074799220566726366437426778387705612333942593427753539956962; 1177052281825035543613287133650211528161197911765345231097807426920709078863; (-732621925297674521658419911841019092102177080518818789454933256741228181622)];
    [51351673373636391428746479467253849059137450672094236128227382652557641038124; 56040144155464555707113464745187811884759736467448172523777282885726278023285; 32381915460433083827931627979728102317192634749135432944533451268486993014620; 5083227609148689652759383049945273749570670694348837435950569564758362807921; 40602180120953946050487654012358806321628965462140425830988711304492920045360; 1969281824540888870265536270973115760250468171027650198766077755511987561061; 27971386902263960325111747956174258000209563666956076127761382840236434282421; 13380323508297318413556540289710371761441826826340204259025582288048154422375; 35010046843707576719314210239293006246786930513614645755482810757824690498592; 22709260586729197734517631860631996488642307810577790921363915227060160485792; 8220264660520862222556026032630704004436330713004992886455260036005927030739; 22431971148071146771934141495603424966451392896855569426698194340458499069729; 7291074004663105770685957473045497353696249664862725801593510027806457504131; (-7956758006629041094151797678553059959924291536032534964411544185731138196190)];
    [53760055897067400489665773195509833263050845969793673012618552403684336417767; 16610320088175688937118739009887493209383246425369877012257924127314641028782; 14361389373396081146696256613604650682662071040282704189711223856118638971953; 45547055513751198720792214297931754252705859080015138095304160932954146111227; 40878691984111424772502437093399911944124082143772798807450237157945652189951; 54243735952095823761474256490987921111460910263467534659817052220934505947426; 26982616824540908042856093403728753740238449398284835019722779574850661695938; 199201906592544403647430564560710852021566425690882004340308014236464993105307; 45710608646023828113348971803986915729333842915672009320993387123301310055361; 10140154073146361267361793218372877315859830256449645058397883708158068513158; 26517302610715343625806180479795261261462011103490094617739013301827013217997; 29288137170621106312167072945439153220129039538500579345240572495166715642542; 24622954469191677616271164197195115881012887824908402135675853324538905665168; (-7607788876427869906011813009401293402724131780389786127468283829905790356024)];
    [27608649448189701505561374337332403029512581159506899308878650418609239647941; 31641816612049524070661261539855825285184703523398187758179159823646441236948; 34397936844677164835965574608527024468411835629435278815812848980999332833209; 49919534729742277179302124772320945771736784388592831221554199975067517920920; 2026548935894388245210900274909411532317861637542080572544340731488982393309; 4765485021454089827971007770057283196633112078211940340448959692504344288035; 7901952914311058629682622607936939699874649846733815192950391482349617467225; 85532437473433284128708273258791206245037861934616411156518573563811192806624; 23373533667166065236991791638591876634069521799008582129243863039346661837345; 1204039114739071479486154165917182007732001686124303544983070485150676190564; 25524656709875321121030818170726340990541018340927083776460283754446214380048; 14976113433694956812500576308799744735660657635179212104328286811699809507423; 12171838405023397680103020169318591290588507695122603964669452941230210436698; (-13949942729578367270300308426285054506844317913056034739404724536987064935626)];
    [53304469795825273299854714085922658079948122322668647297293394441464881470527; 47685002571541626611705376599527786833846649618814369018069081206399572486957; 34603675458331919176003741332260200912401294287601590207603987850436374939210; 13165623478661269722322281187587749683346223881226878726372681557132187140779; 22779587137901884181522387506297904386075211494115553281469470797139846008505; 17293142650852456962906907351660663332713973726150986067160663716790359911251; 4641110553001521653750115929884442104718790720659116705863317694285828261273; 60636572869162762733341262999635970284861348822578644532024847957099356791352; 9197889773912518771768579800748403299641562211543476202590711780187722086401; 13615048240112727366558752792604613228203326397816466246479778477404694410301; 46071956298228062717304138678381657400308909539334245093594274950660035889243; 5893359667658593204783749267398794891124537522404547592367291904266877149288; 42418117146158864919727335779509695116241310293539588918764505240557886478470; (-37946311687222802432022682400098454206102220794998419591002345800802328373641)]]).
Definition wit28 : list (list Z) * list (list Z) * list (list Z) :=
  ([[47247652363584691408596820277011469711095476638227716151186967762488710644228; 43903237190566905020819367345736129176053565672182382317015022050192031160939; 13298280600484886267289049640540338046674942070911100158476867194275010334035];
    [22647078095078935588419817698139052215153319286150950538833928865994727336004; 5150078262567584950341306908865498727153439966980070293828064156737221145508; 6374225685794577534314009150091839166699901908790895979582044779043639495783];
    [25076428398177164968098960792105697671644588032273029437191647425112338921268; 48059548711398241120197024780460225130206201415666975169101429026485000169230; 7057988378570667542021442419121755552642457815471517268975644587851552068941];
    [18871375051439474680426824153702851465431971811652007466699300552969132877864; 2885822091888479312330530950966159549068237763644915671756236776253423129424; 5311519794038542986179673584398274337795706628953128595414091431754762926943];
    [14832503386861478135682109857377779430538656604745982077047847480065169302494; 7628611669842649853924513768943901020642205526408330239901328848958538431716; 4174742705272503881760706935019189246127642535900920637206996935112123827482];
    [2648165970395407789818262206110404468320277084873351910165771535925231814893; 21487496422545428272956384182624609574490539384154183294442285809318446868168; 745350348414679075128109504594913045659095955274300649414928414480821579317];
    [46435728312859535366674171722952030119881240901973328722047467651863143007812; 8830030063285753693850236145693618065746133913325771646422268634481273120990; 13069757206989314427172672204895117119205145344197842197144588317774903992564];
    [55319867700761482854448149533255381014457101214407430190199094302983764106133; 30291115802192326224211773121053448067752766294880599224639266421333816297823; 15570278874499664810774763965420062034250069649583022696835416511690825851513]],
   [[49335455695109847646258506237776437624191255190322055555664492783643150757396; 6043709471781543356542662397172180212912657197599678519394549586025696509326; 40269239374462673646191890569087057811743901276634332063743174073923435979550; 49077040045294642543245783190077193024969881211734106834627828973914186128271; 45594599812442397710985512654106066179513836580061991386745709904906336716088; 39274867311317796498876915435102387868818391699004351974479320634597677736789; 6671010058100161039014566264184201633543714134690909693676443491937499524247; 176158381737746249083761433316651839245895404255103223443137193708895926186941; 41294081257168909781457447129985170806817737066822075286371296351713731486206; 31713044753291639356774407998017677409769386308322980669832845690467737380506; 5325360437979724064793622085019008367769935303427659323002535830982900736537; 26458337616117915950335469983545065920187042337580876160546696752567224516357; 4537945306608562742386383206733235986711548425968046932442334095731110763011; (-555908983621595496224744133284812495880129808444435616885821615954149523326)];
    [56546437836186952717791372901541241647000180716160705650835168368896232849431; 49206596967405222725367763000751887956400255631520536387550598809321034807398; 17073908393867685718379396040853542580135169880491924311585284111606112228954; 45422797451619965143411737833244665072774710999144159667323171406018089643162; 10382076885026961574196344039882158250256066642415030148988645398338779351325; 4977789132259258083618036994819624702401177343941593960180805511200312465693; 14565000789200467374190317054602913614142437579254516883016939024485915604373; 96599218602703439713016552368741177935335368685736319583162243989539190648175; 44986021640498871143241257279086362744882332319044372510085164820458225438837; 3061739896751345133024088652500865848933898947963407186382465816431517617937; 7302376636459448630071294651009942613848327642283726161543141192327365911304; 28823872873153465224231685197106647771582054279183206968452065684569402824819; 7132151932826613073938827150243877373440780509865787171874821595923602927189; (-6206384329382268893145384214891236830509385292525729794373873949788226026277)];
    [10292473728683899298769518133712229514364978943006840381772620088710283646356; 16232995973344971991076543188339090011424146332261920080126280100176095956790; 51565582173695588841500941827041200770262900727195945483759017196975568278564; 52061896586440775453182155474376430750686839821368062803132235605795733219577; 52139073494478897211809647964697790603811609962646626658300700895933891127117; 40528100293942242746745093711420375132435957110586635040100893515373614930181; 36539274547937236109804330323166377379414723879578895126579163470679624015888; 184467579027337351802827859246754762624762179886274047959299428202956769145052; 47760429807368932281081562553387908393242507820554129977811352166896469043203; 46438089103473206694291923632127949683830476537158603957998673955531741374965; 17292473551198478635870723495047098999529752871553913416703157410578331559925; 30601518136812627323752841458167067206904309315267183949667811534614553320260; 3074170798747680522257506703849497416020150877973471170306239767483702625501; (-4848494493444473545912504289804587605821575711125017273765355699188040044909)];
    [10466337542607393470198615694953823134210037061702965039179768857731061324021; 42198757666437456370839114650810564743511244225634498886851751128647742960618; 29916336933445416165138348432428251813325031679675136500470447597988109186434; 9476206165872479282495707727000814307927683779834107180820153581458192240722; 7043920501816709707423464775419791263670395776968284054575494238399121776357; 13370005841181782288446097559223336686715897002347902877995193511801355104477; 14593293557441200368734304574146972908015341227841701566336495091452677246293; 46269019017599360070809442809434376117099533638504626918913588327117228497679; 48001078848605169798124737095235911499124258772232558795374918209755415758859; 3639770220103108975756523741383852063009126745139311764709871364146419169371; 21769507568486542213234847753707108051783924821413563884826708618991459561706; 30755709085882793973770929267495565572257093950564571210473359435187179947411; 3935450441370885477722227691667706124789414200433715080847560090557855049405; (-15867166409226314602879386861336940394967945306064992961458478010346901680069)];
    [31400180338798950554664784079488503332129750459432537561989523979552996948275; 39618914229157278897666052301497804384081657378119818313800643876971415873943; 2217979031067046976231802527294738487783786789269587913269428880500437393074; 9636281322628268826523797515424362454839794151820763443557641695888190696157; 37585781524831296242675067380522464463215012650805273242341176115740527050659; 34756223522590125664820777448441094630136904755176803830606930732663697597083; 8076954911831775324754434685356128591206433823654036504107657584936341082465; 91865000664044597125667256297662745509184908852144906289349271063089549662239; 23007225403017503029587439339309281951558459563836488381432141626450446187746; 1439899320194271987762584404502465475240700304993797265101693385925170902980; 48648990778924672164296740462183826882976266439486605527985299480197375670158; 14741408908752070822345510115363824523973334500179782780518325583893154476728; 26384999075852377710800068463055395784886986110811273563749842580789489595157; (-33291051326572528210195473330842823033821332729149209932961738931133569836416)];
    [15565290615196916499638284899261455146334461273890978200392185358194915221907; 32843833576030979192871475495412739874843729960808535979499898373782215872846; 29951327195353182100440269723243310428703354890381726681438375648466711709813; 28909919070940662533579011655095913467734955232535115545718537068714260154488; 5083321478199289207090186805059628253851837768156987894534755808159229957884; 32631383358617428702480637055723600459770916183014754150642444418227478242283; 27021803509039838639784450442578558935780457561849181697833966941544276532412; 123880326120148475706752418604203745190176824754295037396176411544974979057900; 1421241099911978409817912680951045084381133246332024213420392788391792453722; 2629751753086896431056696933978724261305205895806996086879419276273324461530; 12864103044657712426456891314356489049416861682115620964825557241621230639725; 910631153680060797078521386776410168435974242744998171692886425287937309765; 3458500554101889889499311296789098738154470150458414538515418653888835593083; (-7297673999779435844087267568449046121433623729679812862336173689491661960349)];
    [46542636374233588321296274916805689752925781691802685838494319614443447893538; 37680198816660712630720534333916497698396966988731367964888839919405670002820; 39152704125350175177081749860236447796590968285900047003388325764682817846512; 14330850560275066048893765097031368608450331398586000953756728717448281577873; 43663298266191457660714556903928396965559085956723395472019003648067539641646; 27051213927446751144761462378450791614995356169804753528895343540757930310824; 36868303728192193078379169000082646426722157631061052019540675975346130470996; 84441207375035941593809214764065847046109242969697706427283963303438408452344; 39404536459415321255216882353541154651821894660517404624641124703002587052835; 29527685516571178577952460031011817447155129119527628060386106118936860452433; 5921976703738410111529251845114340692979130084178115899299925453109800617114; 25247650450361821449299163808050734887994803792847913776354107772282861881739; 4760677696623752828821898219241132175069445771114775315146544182127791961568; (-3854171058735588442139194339651588033820823458940509774625509749734460539082)]],
   [[42325076515927651040298914234932319328284059328172947575825849578929982230570; 7506189132626467707386906487041504130293433834887253170743372147700421840746; 33823299578883268475952431307775236126631922223352580692581550728610753891463; 37415630289293148267835093460071583313998824522342195173079587361096577535569; 1922734771592422237020772976937811831073270522599708467779546722581482281102; 24523219024975028288072718449430937669243606951911116387573150703690154038602; 30593680514682460998298518342535902133349410509126585501301702049246634744933; 122521080918652829004331358151609417118747964064014510009931270907454364169819; 12367544308857687121460471344769288156519342066709341353363195374340593326076; 1123275944300830528977530480368668436959058227201537954031085241333412476350; 25995479811367251472853834173506529631076340632067409794926787997927293209587; 7924250954227154665670368415839181515308017941005101714541678820761107891557; 19004073237324256929633939023038765761694255595924103596595180140698638086808; (-3370299117024865485589701043151854492142883498542226783623684831077023274829)];
    [27154124536272927234749177907867679325227932018272859810851002835563686910883; 21998530783282445218036708920959790427168667723986204987927738276000765743914; 43116192654244755587131025620810286758022975062664267091329247570504911360380; 30941873730382849751680453026861442225587450004691910331413052711774184361480; 23981505966911723311910143834866682684897632700551921972929695114862246929139; 973173135848422435385525561177896509704168798431709294480248875675378253973; 32694979986604326413827989542968315362476179885436504970073118853541442848144; 42889890881017560257154463375581114175868647497710643681382282834817611941888; 44808681130702358053205726338412686766207857725468133289800745779523157817428; 17859445117863246001667539680907040449833704067204818645751686387551940554208; 38761357931325065436564610718400349853509649970707936901329239548313900388707; 28710245570199581822675623401040233071357105099114529372268482051211741716317; 18179665768100731571035839032569830908701381997598931125896266924033671373911; (-14727999663370563925532075549674505865977252797467511869979248603083341772847)];
    [18022249884322496132170074528403534115797990185385762405600535577406879558578; 19280785440095214674058131166453244763616334119623032868274931819902898716320; 11479837906544208721964803191026952972076146777485430974003107221980658011497; 12735696958023200384035888418442802911256334222436771700742418275873057661408; 4965001550112270176401820945006042349368329190659280860805388326528091571950; 8358694619132375267468888048896145779465478779417193979846894354977258819854; 21724991573220612877780437330010603412553201276200129887561642909544069438379; 41729681895823649599686285000169264504819548094666137756729531051424284543670; 24908477317113711305125635472114305370883916435780978429136486783077015151601; 984478531762446138403934393678961132886342662712623797383217165455138142401; 51381208262226159166222510258323043303927174745994131906531073108503998380401; 15959597169756541390290376220379322696457972693696728530923469393049567801546; 15994270088043852747318804372114136842488276108613710548173774360778519097776; (-17111187105821178596569803994144345421420681079941277187398670003970368328403)];
    [31871847105500275871397921958755873819092277626548542473063580591271100812184; 56782728861375183290724614156105625406297254819725485821455581178794943457780; 1393802982594900903971126325659783733534164146366328826555000838676103834455; 5610080844595189990713390028225102951097576525065600117703199343448454856321; 41682771661724952510155693405158556136643851624682467865787072543696945160790; 6420968645363807126350889691032641413956223628589318454965868506875189423890; 8482098286591716950600587124292493867464833708244370202411273722081910430851; 24034741122303076962854718307890893180009714503943869730370757799223624530597; 52954429749990077306665586454295670512568750017753598884564736300038691237414; 1003480839625638416348841618702005012370853051645316879409233979157766209764; 40288968679130051606184567079498772403109687478316139039232071705020841326334; 33929467321687870698807520523766861693548706357026464263197968358206205311364; 22179129131141059844105681765524332486515526740856778177176758867186130656666; (-39514229334316535082161281522402293867643176813636601800949815095054010795765)];
    [52950684007977523901779353208387991814777872260199194074012000906152749035015; 43559760554699348651880759040523650653531354814484772470659734117943798594773; 49513934664737596893437940541119099258693427151773008510652653062792490420191; 17545492867556288860327084003159557247209434961059105479383488746565728966085; 50717947943853170007820408565887186746249439783164004139817386026758414292234; 55690821681890258645952425534170111558982945467477283727220621441272133287134; 53876032508485329416391231749240289165368249232786827858661364611187074672130; 135754245244822403328330743066360588565533615631693153240415161545593488784134; 34905996582260774340434481346366647133965012866318042052234607511135971022203; 43375072984039604858073487033170727720139203213416642875719940388322770927559; 1204013279115573114382468024768087487556012631390995629164732963965923872042; 22365303072100164908097331985567142647315129765043832855374129407809943789027; 1101168950379588423513814767416669359707164576125742910394379398782366521060; (-905874148888763126903306741615629718593023785581433714245420528809953746782)]]).
Definition wit29 : list (list Z) * list (list Z) * list (list Z) :=
  ([[27049330572775041533432068825505239039963816317940535506022702151290148666415; 39838975732924757600627218056566405002947433943530876920050942647307605648820; 7613279602634331056094946532807862555558010668482202898658963165294986692523];
    [43080019235192271044704688664225623620248662551896075136028667800902996657496; 44357082018914288954631935120187376101825073812595807600156884608837746910481; 12125262429026384771874372122184852425918458734791389516858988543834121427014];
    [54930065225990695888775982827011877599302319795322323066332975587447037500893; 7497916556186491240507149639811761285685969745265441311174890875874162523655; 15460565429937906974958038859896723295830459118167915696114825966305593610214];
    [26125719043673408447946722554842580910799881352484915861538736212504399478291; 22993150582185272969331849181734162241409860398975515664630340505515943962906; 7353320754619632427231005927440939463033478022080889145385995124858223790824];
    [42578461346099663752189215090869618477024414115659379259699218822919082365942; 26709390047674371483734036559374461637487211981670492347045701321796428546162; 11984094408757063481416069251654030009429290327426230691969326265119598380312];
    [29473280646023580354453717783115197888936028111409068183159845084515374141672; 39002316627277992694298134908447779007588150313096767169806877379686092261216; 8295522351704103740222519946122966453312555246717177608075598236764128615285];
    [54733537868128189133514278063082114317154490998681466439755335485655127166433; 24368977452723775442929318360220066838870134306262204026298816340663681534267; 15405251021289281382539599707331414879067598094445844662954167214922609230903];
    [42256988968718436995342278459872412649336245264038301781693186965948181616405; 1524001609860548186627360050718085792271609852280045581351296472832642481175; 11893613090302912534878281389869568316241763375320365642104626555175065599855]],
   [[46385652855500771636753260999836277747743406474930236011679867457017085007879; 55364093025069781998473502036475343928137913399732237121888294231795325016835; 2399705031511567718964945617399483862182400248546564777486230375349557120506; 48427745891454510170639452361681593515709669498075435551320930303543239303731; 48676563151284643860900850006079295923717667730508326983610056657104883136930; 32773443368724557011111172513513520300644641502145462549659373041131402392851; 47278884709688196934944440770145303939192708282115680753412899331078172770317; 160879140726028582383005060988327923822249178887282651941082188639289852994223; 37057090418019416476377966341943894178781270487385802550352887559452907979164; 2017571222355737430760563574083932462723735411905362301888492727368959803384; 46276858119773076141935904388679812061535267481961762206123826281755326016423; 23743572432205411630332585654054840881650534585210003105327366311846789090753; 37076492705604956570181297396933647303257931245330397084975546386651651486435; (-44253045173061698763652283656038427163958962946014263454116830861972745183494)];
    [9744069879110347498190102434476242384816607592825364300954739398771656315492; 44550143509806449494340271820076568443922443972739499968683831296412892927814; 32161030285716605429180415151189891222882347005759358976049149936543973425084; 42423486147166262982322551111556727581026008854810096865184030046192173249449; 26196231404495577303408311614673147619878264032151392063488388714468361614694; 41654773679011246121446896501796313688161181050722963169692983982998181501789; 10150372510705837025754491276238065389100880552641206873902857064223348167050; 169612851339910200815273966703501816196883695517029548104843665122298806320518; 22937107912630726469882271493348841373514691657461403147354636228828772087539; 14551905870614722906741835170157956321329544657541667048281348709155958583593; 45708338256162827326084441503590569986504576943977349208760665048167127234160; 14696482561513720200875121022011152904446088374380711804053972903016018674765; 7692844044177234808589775680907694428700073096425296254933423663979501302060; (-35171885097148584110213549200661323652734088526979556964575158632878454581996)];
    [36428449043541116458066247112177091498600998149203217850480907211937250140943; 36543210237652193395623530047650568117985219229087354680478677640723853203595; 11322093110058337408133890547809683719443549180009248885946941472710421493377; 8911751545703131345611498215493620328158019478502822812833878365008192648647; 33555684474099730002232076124087862758462969889012214566768899639499299244903; 33518586576107292658902689581983086523135568451245049626636949677134211842131; 47714489443316465150213438738428149005271804617702627727638373642315516829741; 90506332614931814301852638262475204008645413932222774964973930436380622417463; 48659316312712295734146955503961059017578635384311379818271916922177026407075; 6562116401731863201443753855041612437539008321625353281990456412249800607444; 29637744104630759314098106609881305392246289509254900441290610997471219469393; 31177461272315084032970804631624976211228630195650334635258718817650864609368; 18648200546209901171363201769704568355786955253247420989943308695172856899469; (-18706948305691726554690009390483765468881269509685182648459980941794764823480)];
    [56707649843498128599552748243243782818141792924697422402448944338399101539830; 27269125809391980934759494163099375710748820940969851754374455991618236261696; 53025520367524120773805170110833070980868741024139584204165398217721901514607; 33316806129163934237492125732169388674956899480929260468449295161242770867362; 13098485040781757787384467989417787578085428993253665493169038052627507088199; 27494339178728202053092854811261724370803934146678698782815673045020005956064; 8474761389451990464516430808565636304065539531372403616708033822910267711169; 121640905248206961574214455066168639107011118312324281513729780994324884339475; 18191940500105672856074160131397905068265883177791206098842567057024563062103; 11996570575563117575515315432507154113639998782864997322008220915622666498810; 49762517208857656531009821919939042398490031177796324718883252211366494016672; 11656113636395851984081511293567008774815206574759698448500586153324263257657; 48741074106149456958716322205629869295751156156348709981133161668025403301623; (-23438221925147893233773837369745599506344295497543018857528763828303165659278)];
    [42457772014670806036768479425138714616698491959249925312862244962750139230369; 53184134648037187457471299927016605032981421274314118577561600721597256673224; 2436927320211463019503341940811633294603928997243238514287576135255795062258; 51863799461188505027081206304861732107980825438431962483010022584315596754408; 33068872665912236369315687544906103084509088729730072892429096894357003271122; 20516714027995686343649081081342784134733773746537224548753429478598914765414; 26723178718392222484155755081594100645422454769778569528800661941801057474787; 139986004304493217474100197356038899661431187077882620395597975725052874905849; 44039802528973045110603197797714543605132939790956305901195869421379282401294; 1391916145203900470816656798364882732989027025156440091903430354399411051918; 17481709415868755208430765808629064748841740741781914283116250162637138829491; 28217602338747832028644586690783269333570087957227153243533312517413426590771; 12820123338209540564594466547592434487312099480660344743236760703391263358409; (-16058948302520030507400688580280055325285373844319861339446933006146582397860)];
    [27751158401656517462323329129539877383289712763405283113685107729413884773812; 50839946408498450211151488410397847752849744084501760082438748263843156558368; 26199639597048292987364424322474282470455365600652692290300575961199769388666; 38831116779039346228852493042852665249975691982508596123818340069433330734081; 9953691987074088605313522663902201036484934307256831829717979460454484087887; 40014619061399447178385417372800234626953479533844052886915389957988538555485; 50401966852981146083583288718781880459129187677914656198842574207649865710794; 159431321977828351278048084358175390051831655754972379001877655485861961782010; 42175054832474548834345479043133466630982839494482810400246574081286559207719; 4504334353737980349338483431571316056887516570200839126911338001157396777627; 24965878529641074716998239328428388158665393833267806319461435525245461954317; 27022803408228703617949154396523838962555416080025705494971657509137258749672; 11966828723378914796249168913866087534263897855149227602621077134864981000275; (-21923154420103337563608726568164525246221210184803449536870443229476455301709)];
    [3338788681088490089496706800856581168564865192186593791861246044426154499010; 26426849265173531444151938502017026159660565627967432257550190620362096502448; 32710614992783812020099869309478215941085820531368328073184116950453802231177; 25380711740502719290952793609881639192856821833456142916686681519968484661647; 51086661393096184079765182184840697200911855081818548408728678471422156490561; 38250901365621971256680272972995960772787164824623101731713307727309528682747; 28460650109750354091990088209095788381795912630865522215173948067256267890325; 131008301410898509210213352578721690710744885564973844494510166022965273325735; 9580445971757205804923624924963210459873708199297221842871633883034931649405; 28863389944910779511848158417179091267133398413018383799068304397237163603708; 40949832580734198358336209508516121471956464606198040465832392781423658124793; 6138474723656017116719717760306963912674493471275581746429226072624957644118; 2361522940186530268282659134443018444763157984366809103781736015899545514797; (-18691692328432455034576789368409631464554397350871076534920835790277862500146)]],
   [[17002187804875921720304192466701158229705267117861257819695638400388686076966; 47324389027998325546431648061001491781246524303560821215242721294216395326206; 20113445093900279428800798822780151547761959511624895304091768532534969177453; 192543548188646428594100367324378566105125132316088298595318705273236797203; 54120306291788232539642698174509788978283070185262183692729148338548226545912; 12062626500379909458527168024627627013872529675241718976357664010598297472808; 42955640085809190535557068908346857971447535559323118520749706795066429316277; 15303173268289652260375988493388177164520874512117898437655575661536819232363; 19785525017713500007002548942986982058545114470619454986908532891405490727702; 18801730174053098122464939244478577050555636613835381715952797330951717512266; 34006861197887953110841899351729637430521110673637288388637379806013257368458; 12677170308515574548730818000514113937943915297265790060530096177646302415448; 9986710569766724852776063176925533871902793517486530931866229970568857206618; (-27797303590431216358908087891819565863397730761463350180879504970340168385343)];
    [16548854152124491271698308270104353564016661601189986921257073523187955141925; 1158824557306950469098004232124593577743050445804659965063922149468212665445; 39737294735622255538800954957926556170773966043521862144830696000746373930285; 4992990316632300860074165846226758132770327183028925208123028412197014136179; 48774834639403139153407998008379058773908258899695521985097010165858276906714; 38683088138832466311729651687164318942094518651496067250060004846050821343378; 35416879663932113665296343462763277301945774918367929456723469862615907795580; 71471350319191829320991817727996513412944051992746604891340633536717848644196; 29791494865534375647341308774919651722670435990152566916023251238518382707297; 33476897990412719183221462599996265824896910216496799684666547031270720215957; 9037539903780883614607043050452502603134292856173659840266314165111902976428; 19088290748793683145566483040034697039770961793864706277337896785451157463443; 2583266797356933893524870871092603943908712107100994344846518090223032944956; (-180891859661992940358536802965999286636722225930416243698109230134376533686)];
    [2412212813161792837133309851809793086149586158888041717660011275378501704125; 39898564843279879327893182619708313073007005584244547895676433526578881074013; 42148852397098066385472946933710255892526467575794851564913870463711950435041; 4730281240318616952892659053149761947794049468019514325976869361478700918616; 51922585384707421978407032756246650694154983760003273043618457587609137370721; 23194578549583385854986056146133333151868574653127031038202568241926647896; 21857944928247692232336461138574169359370373269478980519104589785414654051631; 5415946587401245533567728994768349405896305449182257694899177647987064120681; 43899410437780673500514354986008678727687933013958251112967228717397688381133; 37800119194161255928519190401459163508624920912166917207853884228749278187972; 9773732987609355592934085822536394801628516184208421478704587123897186935679; 28127648978985027885626194195044684219230621686445806268894845845714799514664; 407218214999362159257431908315163496417594518677881014701982202884667649919; (-6735484642095293067900883085513696595752216605363143479472979552819599677224)];
    [6297418815011565153558491920390814990122628554969454185062332121561120551959; 33009215285320020910422854434933968797698327064144614056402032867881452207213; 2457512654647344604275486698949477486949541135837941046147690341005803314458; 100503768336994844524509341135344066088185252017362914824748469070357124683; 17490830647187871372059799666698062966642033717469427341971093381433195706621; 27495755315215276249506848074622942390491455229881819959186372258233721929852; 52310522696413158046936322943178127598767760397155640731411593329648085469923; 30920970813883844235708686858545419030528471053769411562559466599947585931429; 13550782404743507858646979346704748477317584490289502229017539339802110819216; 742433061513591027766585226688952059106364370487993814543108879539350657898; 15033317992540526767784312967748585479692492581631486295823403040427392392162; 8682386553036839832992169340426813304861607178180577534093849384661890330182; 1635191146508254716929934720720299495297080721677323502793815894940848307677; (-8571190542238236731500894060564709578257342784709707712101930818711522570228)];
    [18426840258637972718670195488655680988537170743174575101534676457073619584903; 38527585858109498490175714924437073855189699226237652996406428558470468189180; 45024533193091489561110142558162408441532558185223238670375263485034647901315; 684977427955091938613743282417929997052970000166800083479251260741531196934; 22120491312144445235542398931679881774692312044621593283997614575013726797056; 18820081767752714231436097692616943103713452618716905096993919998666881017837; 35120779663873369864589889731682139082410722119302440995072209632834652167931; 26685959195897134568144376172964102658882428317584655423138442039831137207497; 19872973782652784387378880604996935050631820866990297876245022210343172392782; 17202639694839722439915678670025989787876191597557125499639460948375004202042; 34992002737711053386217748877861427259794746192218636633351143093935643715689; 12733201315295134276775110857285815855473210228709982007649472378538802984229; 11137065563367134391822883603500763504046996742258933780041018507116523941990; (-23285828914638772473445960730550700722375599812538186709946969077286714733839)]]).
Definition wit30 : list (list Z) * list (list Z) * list (list Z) :=
  ([[49192919210657974925942560458328182177623017430917591554969689234155051080676; 12262351855545429992079230903590240099343027625070087075577607502038137934336; 13845793610785031918234979701272255769816732767612496549639028472493593684402];
    [9354073337922751354146120774298764868374270373372321156112087655033660064041; 3234410564997932175753550898799093558925804978693077965561851081315357422765; 2632788843093606244730489699629205399640068011324131356910741946467975073011];
    [32538674834394384287504857569134820071377500110098732361496102420609748981466; 7998583315032286793472251879715890605393310051508928890696371672406100253374; 9158305369034909469706543673643029100358778243471643606160081956268474710446];
    [36813107083849184890312781224675222219385683033687294761574647040397577560033; 15805492320027810613890156207339490970513385701314355241135708300627647074649; 10361383122477368265446968588247976506835462083125834019490755126751719017355];
    [56115070112497356787964208620292969483000584311450673666490211381428210836113; 13958148162205739879628994210367925984524385315561800732746933895316624355510; 15794095810927946064200732825878326294740289063183772533290243770203899625792];
    [52784872415327204616170712203113392355296120029896669370010374333789602628760; 6586554737353406641522049538151793460821121452481544141337454397491442520268; 14856781442559669873885472265739113703210102529086035095315332621161961044326];
    [18059418119769692798332062211330292281642060219789425924983283455872741741935; 21160034009097181317293626713225847742441390546874910234498980209747959258197; 5082987145902662701051100047382132468335859732106497307178074060648876170916];
    [672288438331029722902303542201606842867113017487774371147933080931643437440; 5047211566491917054679083220409182520559888161145698596556765023801061010200; 189221682986272104212076360685416013735484179399761195120985488332181528707]],
   [[6687503405520459644456484323979662585006247359499822807198278786053106819366; 28001418022695693931926419495778063831494905019695761058838216407163187565011; 23537391240709975297935186863887066735055075708719196418217876512922026053855; 5864795154036053583401302093286821237189874141128838117348545814164784397146; 37095779601984240167005358059636080071642168206908642229173269333879381425845; 25638623188010171673966158809824589434220254915109489278683523808861106318695; 43226920026693969893254680831491603308673294111822457717872940307198380001154; 56028122053137085241525922710291890870096184306378501547187284627102166584515; 42862840980504017619983292282645344056681866642407039361488226932860859456324; 15081131770263739193784085799824166591997691477126072221345498404907618308899; 13558388361274264869070171195749013336587092498189445810955392820957355371989; 27463488309266275652736159238354329031435527707895720689632393031341281039219; 1566113349134906437819064346696370015665699282314086163857937695441885922414; (-6557513604232334830782096203973253941415892156385808802212004394082149106832)];
    [11328500669821647295802526198507115790133333986771312659769831684997148204029; 40877989946789152260495651852036403295445939269827175327417418414058149274048; 42716357150107198777373725796077158624720514934350845715974752359376496532323; 2128462450143094742213787976017738407779809711197376240933945688943174047075; 282489743093514838354940903376290785751037533719072115298387160986472041804; 18633864266964976625091730044278279972694765879123246158560403850713854959624; 38582912440179390024737906432355964489947383107982628955535122882829089153761; 34124742468439585028433133254140081585796177711137235977140934100805876153970; 48091433759559956307689037476615055336905960934870989494531756259215759519515; 208424130468764535380613553354885165302507265054343545132933643859623140173; 32309877158507647552402300424515307513402741377376613786260342601211610914076; 30813602146256936152794526954856135968869726831471964115251779948277781248201; 6322063405935184573316485702300399844666527873530102960741234470634941140851; (-22812660905712844178694837897564584078965770985289190976087361971988271154123)];
    [25894384773347189353760429139709265821823299352385748702971207827242963601893; 35338761534202014958694551669959368924781518118460059914713476833904461177038; 27533244979428251849676648325915423968183716772313364193596314024110376878252; 3605573983294251137038441144185990623206098094853906310156938726498343588315; 44537112911446547464775960040073751683907695576139444589079342750203588754869; 27202726503259341212319758157046415013156304941324760739761288518849989120279; 6719770531387728919902887491560322918403651951847105576483539432994625770129; 51357406748995740564995292974997774502752118416031465784581830695625370659838; 46519182534048204041242847937949503186809076038637107207991322621832991732659; 21180224807138761282248883632308236564812192669000962786779371512147994112621; 29136834471270693835794955060719559266440840413733619326766370124338199923358; 29806214344531156987449954884707753365177629926125258432092479040857683087463; 13031639861512469355679619208604360597179456621980094872132984590301696294871; (-17784628501373041354394390062362395981539294805839264546911310545544449642163)];
    [22084726119119111168333998559108245406089710656945934253118241303523130906887; 36591876414229103330895627243931869540059183079142514172982493756902599907769; 45752916717558111182300374034412293386687825047983564575329081826125852034252; 8241524873711405992307600497684278241119238397170588579413541905563830036723; 47666933347548543912608133469014875141594788765528869076119145788038199066914; 23516583526492771193314166970206683772701185614787578397021783097975254229374; 21770745547979862190231497456329017989054088626123789601905491716373131255344; 60237253343303297530818155729992390385419487599390053595231798388189012279021; 49008278044525664534420151450047748928075897056287345851359077952465722115468; 37669261276770282794805177888164632320124143461309106280492061834182255470140; 45066892119028972707687385374580525818534546700732931966224430714771974457421; 31401051361604706152751984172147290678481716790417043757850976622757922242131; 17190983875397445091435265275668475344774347509982384491304867963167278285664; (-28483502761801032335101240857523941058150901595598936678864857857030502225154)];
    [11177200119308816248323748566679325485099878518079746649622512054782731387788; 34117262184317765979709356612561079005470563689016324233376419599473710573759; 6374711217114486064625600471233090992239562717945452661555379539309527218159; 7029007301504491532894994375758931259793864729480430483398324865940087836298; 47657241442372664442262994528165083526196496362928264907476250137559288315290; 24350483172804002094404287022167972221633734922032523157542084566148187607370; 46385522384682120688441550251543047788700234881363513195908385320099850193959; 57722289074828270222062672295779116745782798243448694663346748680709442330461; 15435236769145001913533601057754375691684805286217669043066656469723941181741; 5247355904888892771372307864052723961501812191975658261490509794885782671581; 17346444661751935918474555097069555368986620351355215951312544120556281048156; 9889812127781784756378214706304492274302508474734916823535426537383737731351; 3348841611201095814679690783545196692391540812415388849522416944540334079094; (-10221997105136040393428920096956741977292074297983425761296255362790629941606)];
    [49988485739376471760092520637750369749962838895106092796955980119556878631108; 24507289128744354404645095660690695805141892917013727275732585682955931230536; 23038568149452852769105669105800223482770708766071807237634783595428020851444; 3557418861580712862810168617755528831902315839155497382630212494097721942880; 23268836316379443827502578841471908074883220345570293207029161785511447154571; 22703722796743991389580599153773156890634549525194061834521769383327031651901; 26863624499381520184241333356548435612848130879999866465317102302720412235382; 44557795334058795852309722743541054353936205760917865559315103672894350597431; 56493422502575165303399276660558197672927556803297624606857219050988462475742; 9259366071799128426219897741435701840999614562136554056484658965730022719318; 55778715025419362343582639304432407622918227627919179723582671057016560724596; 36197004513900736534664496343052408229029208575946166769907406433348721847486; 48160345304665933940160507743774207542298985696698765579932997607807613193841; (-23611027408895779007109701890490073385409375661707403473519573635412435295315)];
    [13965057334485654557519631244966956429368157253782516918853568135695248094185; 20924624872955149049223491465944811425899329735169397671855552630631338061304; 23030325302699698258631128046765592143398207940254023426890887349525173176636; 15910065144482098276703512885266020734506884867100861384897148694933166628512; 7736063524037182349562525355585772791927891014970936661463422450440706266279; 16308656183274446707196856383629468760825941526755077036640682478052936228349; 51518911919430644200119895443365464308149572720525608967772660007968896148103; 73284179146996465268067076619617843760537869959571990605803121627973833215601; 55057166167185896887387356516782806269076017095061590160024864619555409534377; 3077309696965187342261802308144358456374297419938757447632197006170448747783; 17053760225921128401910603184261746268089303612084877530322496013392049234138; 35276752655326686106687828787547907079264715801008714521104814175015550361253; 4113523486659899808032793025904078295374752375218954283165243586183388317323; (-6163521839032901266850939498190500708032227910098556402825151885956691458087)]],
   [[40318084854896432497838617212393601390110345789501606463225148147119291643003; 27503331955131306839664085179093282365638126517858679041313254401675605642016; 1132069498984469324201175195807812571545659459524970182406784528529155259932; 3368500000993535452612060645441758185398235115225288328565478405819863042857; 2415863359375215694796346397916404509636702360517698776028657292634421559398; 7562518803448466887263896998007059609170934533332420408005472425470666874882; 4892509735021744464802128678127430766916587855018217700731307983026863694210; 21025441937425836449234124084267182835688945970849105929684480878892651938139; 28931206914423995120083736054638354562379517631038034683525096589599233581161; 47238550420445404736829715992530269737957322428422252821174937255434816475; 1283793860390746370595171202108591938091042900992728593621872764105266299465; 18537078847121813321602811337097734206025473812959824386058544742509889811610; 894018065316132147035460564250996704077709525987949287998644983915911109382; (-609862192432180867467328702991406281937731596585381680448221262882615023946)];
    [34154780189500812416297672002800597523847747906621078471233781199647323187738; 9144038063479072042481831443200573268429989309329561475007795234649748547628; 42154018533729923488164721245774136198575717801704722049685757319453819170109; 28077012463866407936587192918385186795994908137348666455668853691989369457100; 17098744880188257345645988437335880477484274686612016193147199731034952597303; 13065370417211056164940641897770870511128501083844333479392165490694190933197; 16990506333459359514331814343224271346779649038559583001112624600269808703486; 79448338974043804485131338050600212978329891511383639233167008176066991654375; 50025037418830625537570316102078533440189888922275222856867869326299089217766; 12449569108399680956604980637213565858485378294238421439458770818050994717289; 32840770965116431569266759695905698205543549217727576163190234415537698247142; 32052519126008428104657784358304966665543395779724532719142034367297729028412; 19373850510088438356456040292915569553339299542546078254119945049181659776540; (-5186835503478358642140971251106929011159684459614854822148554006198585249040)];
    [11839377252169370173458082485821503161688071731673988644807436218313351417281; 29069456758134827294702768545306374262760185847646054083907829281116245110837; 10527640351483442837009204241654943207226620051465156413832701938172423718203; 20149027752703759370514308207694219469724071983790635773989759795290578736109; 22666552262828196268744150496362640719020839328829084571458344801146827086026; 1444199386280839031401585836476730905479163418899107094109729715747541472542; 46788567805480193338781172122412812496008382914288278519883964281769339306864; 32381964509893274397489801128252376565887504268067492309132514964425330837508; 51937560016689253771911297013620677291030502938326468183757527350857843772253; 4121616801335974681432282682816933454119948648676873596127756528231959904725; 12138911911344753431734946254707697511794219277363928157625642862974403367822; 33277928847015688670535278209991286786960061615876578725895632671708802880557; 2482331193708996592834822477691083331997878423152736508201985972638545254772; (-6094916798235376221210015410426140193238062768319808513485881682470936354894)];
    [16413100402534548574789275325187919332620685948991744534619801776946161276609; 26914327229360814349254992450749418391547764873949295145255805215324042208053; 8446183322664742691929470484587845551762706935558140982968705343334777877537; 2421078238460746797209777045509861174953529530427315877628671684952493975776; 5680304383155441403972507396294421183765103859238352413163975729154543767038; 14595700306973001407610821753647191243112939654767969786175216414861546480519; 24697224014628421151887687799093254584004110953148070360182733201275913258937; 28905820960751674141786183919795331868773882484794496095798103292258593103863; 44563452974431205876918181935802070951405752907054558561104185089437202434951; 828673054690949732356515275452553627377652206622809522204612652468737119795; 55130165679148796423828529416050529558637389256500493449924062389776330709449; 28553120646867527938250266079310986150747418899852367240074275053400926436444; 15628994181903510633100471625262964915868802111551330758009645869952367513712; (-25628543868078124430021691621734632417723356118078503173888853676325051784131)];
    [39889996776461429953017745748202868941628445010936749699607514235758480168479; 46963357182225939507199438676569248839185976608832841466490839922106986386462; 37407216062978432720328064782698678802446676503197807505732873475390444553443; 4652992559302812383078200470544682210215405137718868960256890949864611781462; 41210830777849129713222908390926013346320084948803513929386477612494527694307; 12511753004550978587335609296407151204092623716994590222568264894409870823598; 31273356437270623574898057011762231108793228172191699133746585010410332848964; 32424770941815691364814906868487046787167258713825706028351625457686841058720; 28270567636438868052703914218051241506991736664395584358307817677275921609156; 26626731777545987672449510350683041068608940022415765786832647132238304614905; 3803614714870696992894843608227334543873408445605706423653604137104083140863; 18113787747592523458061690471193139674827320957974765165715038934723295489633; 2620665707207858673433779639538670542658082492762123482266965192836032912458; (-3085366498085016796793897129794384311724185076356421790721550935565968526706)]]).
Definition wit31 : list (list Z) * list (list Z) * list (list Z) :=
  ([[56449159845156832713850161799398571731738147939289379270626210887147816372235; 32357446505198233741619822486898503001706039195051671430946028414360725901587; 15888128398546435154053597066219031532076678267001672642671937645845920995599];
    [45534431982461101841937319876160014070997449792881885204530477877817643628528; 7478025437198428698419233521980205855272170372947857660225157430350629586719; 12816079174193266577970029275551292241441624370879681069024556445087266684325];
    [29035360957139537116264487051260555781559488967968080899178393387855759279092; 2991627575801073505997152863245792886898128986495805783117755736082712646852; 8172265880494849086921252400698358392514943700122457895479960738199107562943];
    [56748446604653410529142252932481766033560892649818574580874258847577200107255; 291606712820094376723823721245181727419430031943181399713875917460183441297; 15972365373479455149014082072394141305321611690204225239158500484740466855757];
    [43028060104063401330693342281627204397223033380146264439538834983737522094957; 7903499241032751213639771046553956713067924671422940620274928553915949581508; 12110638059963729514969365419197162620440431633075211476234674150404449119881];
    [1848384348823464643739135398947431785242734988738817972451887958728420022721; 1556156900771682445383995735520475480097737661595438645347625301141948854174; 520244551814892601550169748340176006886494311922575597526362757538638693291];
    [538945848420953187732499655896177281603047213041890627686000570370127480948; 4080144450650819354714661548782521181223817557250367217386535026988809997670; 151691200773651808728089344734837134706612765796578359233305964951215996725];
    [51038068892714026516888079640670590898767584339582049932201606041728640155721; 295132058402630557188151537653579312749524277944750774128394679380711842578; 14365127736278821725414786375940063080379047212242103117373068871278381417095]],
   [[11566782627862055775429313600993990688467921633183155960530716761312189810219; 37430295727060303617524367747744652011782083356822721578098901730297238387561; 53269891902362136824400641504273672370908871277265696391203095476909720155351; 27483947363017353649197674715000059217944758498360605796566472442421060611410; 41395292857251698699647604360257999235225352024174226293832833164838502915245; 38095122600388321119605854932076786477444452369181005234619915890082701095251; 33875370593953207816392091950296953289705542181557835167101974404174161355219; 130293962973802142252043174620873851698801289257644953893078445161225213509838; 31374192970543372661176485788964065982639157804369403667357720333757324401939; 38087623952496728198270318754141406662916782486344844048770697627111108318744; 46021445573547659587032455360328280790951473079728811922358529691885347579842; 20102372174795823120691178716146612559602810535725813809025291277908801339347; 9194411477941619950670736690755616187429553751620120107111963778152981203706; (-29753264302438373724820275978566406755112862171538354451619442755751814933953)];
    [44866601048224592046794066870472516915443827796304152862320989703342331925903; 3860408401002346751992716079215654164143528242335818078794905799010983545880; 12788694831751633918790671541853364688294900510997482684750389247125629885847; 7969437718561397628850122807093095642179876463869387924633286510590448386646; 42512439557056388482480176209191178219272349871900234369189406797691320751660; 30362218338828921789617894455335467628177355062417058788771447057100195433578; 48199000893608351470902131125208445773279021024392353588446069888916919283884; 73503477091251516507591900008710683547963848380222738725357758277311060947704; 50771558520136929547050795745336367447838511525410775260709930050615461662598; 9390600335990310776114938997331361915738677985912409036863278569061502232678; 25290402450099870176629938171206322638141014496563476287041379467593963618765; 32530837246537852340344424755705756122468488862651825369853883559052885061625; 19598824143368092028844745628129997182094477445965863473625281411832506669229; (-1686320416639176440633482487672750343519801981016054978429340429381678379023)];
    [3748876099198768087790678572316503350064730796356389551858545938907270449428; 4503449783293907748412604001874743213137248331311866541393166470749118979561; 24938417261975714544167406218818690667758151907553840652999216593120818702611; 30912795217234685444758324354812419358968729238130582989739671696901739552374; 35126545494246293625584133233367344376196976742088720658881856217273879314077; 3131435658509774666214724712914132841517872623124294888685224890802725419167; 20254016308052229959427119282850033695646394088183615716914152040167260844267; 73098330411299558998898111002358065300706095253209574604854660302120837031264; 34274460918599523203072678756638901717492937254054316653479604455979669765814; 15130575055294524880987230208806621934785412095138012680302235576700885504917; 11867159130259503855010693490907362542398510557962515329799504477297501595711; 21960659517937844848154214591371341076283940654248551400736463476779832957391; 768420528929899105490211255392170918388318630642919375158197947335091675193; (-923088193079401000849948238678768944149695805278316957696582100803244594902)];
    [13532453479860272658220548462024641080152611403697338325761433523410853315007; 33813627764053267874466388900523168099232179562658686769197843195543683399007; 6596536206736403677500659684815633302827714748809529464219332890866313728860; 2582951158362884151674159008931233748073677161852578910163881031421654586448; 46879850841634431153119341928697724818846321472021046058052053369361362178439; 3653049566997377184053098719539539686197382132003066918506183637905117819907; 16258559265780591660125583426678151468583561962626430014193296988675032408466; 12379812568812166038182426504263895203201121279421369619514300863281129740467; 34327548032608700658590832253139721007204900894185788492247483340181010323860; 5341377558348496357884586801959065808628562737427119335040930591602990758320; 36544543075698120748439226526422486789800533269813603845092284185673437146301; 21994673999983654100902867919496876293431674002648670474192893362022345271451; 8541815462040400565885544414779659983342537307717556627640912828821797211903; (-21343488739312558860826734929449084598051634926373943417298463763338221886051)];
    [13586286546522582890257626111677695835213228611742416577339749204642899943923; 6631343233649813988777117093801178215546557728438157109357685872766146200989; 53070512703269900128835737500737120412137796158839158359974678622693920644315; 9323772102995731865596416055597286182175078945021379333339117456703217576862; 30446035618904763036799355597475603582202762292739860105544697614699401398668; 27428496864849760376631282740352696131321985001713156000429638826676425298734; 33698863032491855266285640287356584726744616142612674119331202662683918973608; 71026716590396721178626916218044906374744977634196956775222780953133220023734; 33399186749513100420065338986534362269175804403388231998814862429134631407918; 27908412927341416122381378909361913719173520281297367593166237145938940215598; 10375495936340859779230828560796747951209694589761383598203617600671506152440; 21399845503742160860439181864245444172518204200566547971229534961806833391450; 2434785688416080207682814073637319865207242637410317049706785168978471580482; (-1188396810635348271531663210775119378563196338516879418426505547084181237546)];
    [12989224986218314291053474156250775697928421871462185457454734172022407018819; 18186167798008435381469021887535930575400156129302388434781609156387257907062; 8804435219215634700346161601224210473252604429187719170856587746697174192526; 9360862734484822362109822983830230811490646879966151011319258659382852046459; 35234497889761151915378926614786890976294498729566896616956386903270965150258; 5379126379550099916348903058845196211026069645524336933597774177473152222340; 24769055711907585369674520933875974015907388583347631749705932565123791497036; 30329687754474294777194532606599823222164371125269158155952995380078308234644; 42385948003120008044185009471886668313732823490065207119311421882926233804244; 5358221899186836989199445230538061804459610720776622749658755468833957465736; 54766081777535560059033394475776060142287048680402128392293705983114033812630; 27157928892075191319550592715967692111165339989545421243288362343493782619710; 12287004449226023273799558279439268362371645113023696525787029441158845370813; (-17202991316694175028581623941215032629502436037403917763797596081702156265318)];
    [1750506308444799747800933775664982980357785786584986040908968665256412979431; 9761163806862067634610823247705647930479910055583866855164649084372695602453; 52372081640301431807266170967180516190389729679946992497231431200077195615789; 8949491217263576886475860387280727887780357110911862967233210961223685415088; 51609726000142527152241750846473392139527494544309604298294740041844781935336; 14752018029890093027379520700448763918779408966724928355324705001240875576092; 24667439728993312552812680238263439689472045346277299158780729460071122522935; 46768089981348232360661787105440932463994263204307282978173093117072221464214; 25922233492554751829705637022060438398577846892125063454397462292337828394458; 46685551686927992858609584810257966241153653173609688625834421005294818471654; 25395728518186286161074044962146182512724977405566131938194114522491098348768; 16609140695938928532907327717313970011023096464711664076961140935012208936678; 767848361169564432276041374397683320139983506830752223835014550542978255321; (-4281671877472731057593455630430982716349209181805823543151490721259517792224)]],
   []).
Definition wits : list (list (list Z) * list (list Z) * list (list Z)) := [wit0; wit1; wit2; wit3; wit4; wit5; wit6; wit7; wit8; wit9; wit10; wit11; wit12; wit13; wit14; wit15; wit16; wit17; wit18; wit19; wit20; wit21; wit22; wit23; wit24; wit25; wit26; wit27; wit28; wit29; wit30; wit31].
