(** Data of hmm/pos/prob_emit.go, generated by tools/emit_tab.py. *)
From Verif Require Import Base.
Local Open Scope Z_scope.

(** prob_emit.go:18-1323 probEmit, state 100 *)
Definition emit_100 : list (Z * list Z) := [
  (279908675835804030, [0x4e0d]);
  (319170518995072500, [0x6700]);
  (319502670940442850, [0x91cd]);
  (345081613536272500, [0x5e73]);
  (361871566678210800, [0x4e00]);
  (383852947975212600, [0x6709]);
  (389978976779288700, [0x660e]);
  (418529499796041600, [0x57fa]);
  (424007533752607300, [0x6e05]);
  (434742900428612900, [0x4e2556b4]);
  (437328190084553800, [0x6b63]);
  (437588349448730900, [0x7a337a69]);
  (439609258136980600, [0x6210]);
  (445827343741425200, [0x8f038f83]);
  (448139453147023900, [0x5f375f3a]);
  (449070125290264100, [0x9ad8]);
  (464959669165330400, [0x4e308c50]);
  (466353083446596100, [0x5f88]);
  (469571881935036700, [0x76f8]);
  (471104368193713900, [0x8fde9023]);
  (475345128601893900, [0x5408]);
  (480491259317585500, [0x81ea]);
  (481714910071104100, [0x5e7f5ee3]);
  (483678002721324950, [0x7b807c21]);
  (486986726746378900, [0x53ef]);
  (489196761446445550, [0x5177]);
  (489231683744687600, [0x6839]);
  (494797650851282600, [0x5bb9]);
  (495762407870336700, [0x5de8]);
  (497397628969926900, [0x7d277dca]);
  (498829087709634000, [0x7cbe]);
  (507331199521918200, [0x5bbd5bec]);
  (512484765776515000, [0x90029069]);
  (516463265526217100, [0x826f]);
  (518454994173407600, [0x70ed71b17279]);
  (524108935214974100, [0x60ca9a5a]);
  (524704766173337140, [0x53d1767c]);
  (525429497572358200, [0x590d]);
  (525982818903598800, [0x5e725e79]);
  (526640716013403100, [0x6fc0]);
  (526818584183787900, [0x5065]);
  (528952066982119100, [0x666e]);
  (532334159475831500, [0x6df1]);
  (532684139641919100, [0x56fa]);
  (532792072733886700, [0x6c886c89]);
  (535695590859445850, [0x5e38]);
  (537377244838520600, [0x5b8c]);
  (538571458632951000, [0x4f18512a]);
  (545254405921363800, [0x7a81]);
  (550722308839531900, [0x5fc5]);
  (559141954445513900, [0x575a5805]);
  (559388216663196600, [0x5e74]);
  (564482328633723500, [0x4e506a02]);
  (566504112213336000, [0x8f158f7b]);
  (566997004206464400, [0x663e986f]);
  (569381732599505300, [0x5148]);
  (570202530641288250, [0x771f]);
  (572024363207808050, [0x6e296eab]);
  (572545302073734500, [0x535555ae]);
  (572665905103428050, [0x795e]);
  (575150251973335400, [0x6c11]);
  (575687776525786100, [0x5c0196be96e3]);
  (576020002744983900, [0x5b89]);
  (577275774793532400, [0x67816975]);
  (579017905108350650, [0x4f4e]);
  (580051951375044200, [0x4fbf8b398c28]);
  (581843565825729400, [0x5145]);
  (582773805091960700, [0x65b9]);
  (583085817825585100, [0x53e47f8e]);
  (583757712850459700, [0x5f027570]);
  (585024125072032700, [0x597d]);
  (586122534284850700, [0x75b2]);
  (587746323151994600, [0x7e41]);
  (590304492023168000, [0x70759748]);
  (591414274221447700, [0x5229]);
  (591705819617460200, [0x539f]);
  (592193625462803500, [0x610f]);
  (592242537178134200, [0x72ec7368]);
  (593423653270968600, [0x5e78]);
  (593522712219138300, [0x7d307ec6]);
  (594119135458305600, [0x60b2]);
  (596643247251017400, [0x65e07121]);
  (597774364709169700, [0x516c]);
  (600819219353876700, [0x82708271]);
  (605232902218255700, [0x843d]);
  (606748507990734800, [0x5747]);
  (608402380875065400, [0x79c1]);
  (610025604921274300, [0x9577957f]);
  (613595287918480900, [0x7c97]);
  (614141903309256300, [0x654f]);
  (614324774436110750, [0x9bae9c9c]);
  (614385805869192200, [0x548c]);
  (614691523013447100, [0x65b0]);
  (617422915656822100, [0x4eb289aa]);
  (618689557037190400, [0x7de97f13]);
  (620555162769726200, [0x51c66e96]);
  (621075997280440000, [0x4e2a500b]);
  (622257888910754300, [0x6df7]);
  (622721312447844200, [0x7a00]);
  (623120249147147500, [0x8ca78d2b]);
  (624057337664478150, [0x8212]);
  (625343311393047600, [0x51b78a738be6]);
  (626370365953465400, [0x75af760b]);
  (629516378638694900, [0x5bcc]);
  (630372303978262000, [0x611b7231]);
  (632033591733696550, [0x6d536fc3]);
  (633500969493414900, [0x983b9891]);
  (633797046689718100, [0x5bc6]);
  (636273721121967500, [0x77e5]);
  (636349737849307200, [0x73cd]);
  (636959960948071500, [0x80a5]);
  (637189758061833900, [0x5fae]);
  (638813295848930000, [0x4f1f50495947]);
  (640463628000377800, [0x51fa]);
  (640781088584455100, [0x5e9e9f90]);
  (641579177417556400, [0x5f97]);
  (644671368451415000, [0x8010]);
  (646422142641415500, [0x706b]);
  (647776947445146200, [0x900f]);
  (648118536163286850, [0x7126]);
  (648204115971676500, [0x607660e1]);
  (649844204525618100, [0x5feb]);
  (649931274622542500, [0x52675287]);
  (650367765931012600, [0x6f02]);
  (650455293288898150, [0x865a865b]);
  (650630578171639600, [0x751f]);
  (650982072382384000, [0x72ed72f9]);
  (651511641139855100, [0x538953b2]);
  (653027497182939200, [0x56e25718]);
  (653297402879855700, [0x8c6a]);
  (653568039039630000, [0x673a6a5f]);
  (654020733339207700, [0x6b8b6b98]);
  (654840783492839850, [0x591a]);
  (655391243598372800, [0x6050]);
  (656222657163599400, [0x914d]);
  (658189933723470000, [0x9f4a9f50]);
  (658569081097096100, [0x70e67169]);
  (659907533200570900, [0x6025]);
  (660196690028550800, [0x5931]);
  (660680483908797700, [0x806a8070]);
  (660971887708982650, [0x60a0]);
  (661557255234128800, [0x4fdd]);
  (661753141682662000, [0x4f2450b7]);
  (663833454445638350, [0x5403]);
  (665041928367145550, [0x8352]);
  (665549801475047100, [0x77ed]);
  (666060267106215400, [0x514967d47a7a]);
  (666162673669184450, [0x72b97336]);
  (668128593165198300, [0x8001]);
  (673605001706195800, [0x8fdf9072]);
  (674826560483008200, [0x96c4]);
  (675386786037875100, [0x6726]);
  (676858233073275350, [0x7d557edd]);
  (678120441454250140, [0x7f55]);
  (678351655430088100, [0x5bd2]);
  (682607616871967700, [0x5c16]);
  (682728462808124500, [0x677e]);
  (682849454958395900, [0x5fc3]);
  (683334892804875700, [0x5bc2]);
  (684067496814083000, [0x6f2b]);
  (684929040604644500, [0x514751f66148]);
  (686298072565512800, [0x53cb]);
  (687052793129051100, [0x7d147eaf]);
  (687432300225906300, [0x52c7]);
  (687813253067573000, [0x66f2]);
  (688451417326525100, [0x88ab]);
  (688964897273728900, [0x6109]);
  (689481027451751500, [0x8981]);
  (689740094954160700, [0x5e7d]);
  (689869880825720700, [0x6b226b61]);
  (691308754570930700, [0x6574]);
  (691572606966748800, [0x8aa08bda]);
  (692368367134080200, [0x5bf95c0d]);
  (693170510472537800, [0x82f1]);
  (693574007993755600, [0x53cd]);
  (693708869780885000, [0x6c146c23]);
  (695067586335515800, [0x51b2885d]);
  (697560790269064100, [0x58ee58ef]);
  (698123379657280900, [0x6d88]);
  (698689152029266850, [0x5b8f]);
  (699115591907912600, [0x5c345c37]);
  (699543858087112600, [0x7cca]);
  (700405932391503300, [0x5076]);
  (701421169537905200, [0x65fa77408457]);
  (701713140548238600, [0x82cd84bc]);
  (702152701695542450, [0x9ed1]);
  (702299652493478450, [0x5e84838a]);
  (702741805019266200, [0x4e2d]);
  (704080114956829100, [0x9811987d]);
  (704530228244908200, [0x75db]);
  (704831433291907400, [0x6a21]);
  (705284948808446500, [0x5b64]);
  (705740530462032640, [0x5934982d]);
  (707119862675266200, [0x51c46dd2]);
  (707739059700058350, [0x731b]);
  (708205986618426700, [0x50916770]);
  (708989075976481500, [0x9057907a]);
  (709146432421224600, [0x5371]);
  (709936950371935900, [0x8fc7904e]);
  (710733767336853500, [0x966996aa]);
  (711698405042034100, [0x5353]);
  (711860086564724600, [0x8f1d8f89]);
  (713327105539504000, [0x90599065]);
  (715821000374229200, [0x54689031]);
  (716158268822093100, [0x5fe76182]);
  (716327330569883900, [0x96349670]);
  (717690213675444400, [0x666f]);
  (718206121956447150, [0x5fe0]);
  (718378684553194200, [0x901a]);
  (718724705659683800, [0x51748208]);
  (718898166240904600, [0x6f6e969096b1]);
  (720826359195849600, [0x5a015ba280c681bd]);
  (721180969496524700, [0x62bd]);
  (721536841758224100, [0x8584]);
  (722432102885435400, [0x5f00958b]);
  (722612120935850200, [0x72c282e6]);
  (722973132158260250, [0x57065713]);
  (723154127682784150, [0x592a]);
  (723881403615692150, [0x6d3b]);
  (724614007624899400, [0x60e86158]);
  (724798000317100100, [0x534e83ef]);
  (725167004425845500, [0x8fd1]);
  (726282257620893000, [0x786e78ba]);
  (727032730186299800, [0x9a559a84]);
  (728169106051331300, [0x5927]);
  (728359763878389450, [0x6301]);
  (729126051152946350, [0x8ff7]);
  (732648920341320800, [0x9806987a]);
  (733248322735341900, [0x8f9b]);
  (733448924608028400, [0x67346a38]);
  (733851339638000950, [0x56f0]);
  (734458014906224700, [0x964c]);
  (734661060661262900, [0x614c]);
  (735682520002234700, [0x4e86]);
  (736094043216745400, [0x52e4]);
  (736507266945236400, [0x79c0]);
  (736922205299917500, [0x8302]);
  (737967146887351700, [0x5b9d5bf6606d]);
  (739235662840083200, [0x5eb8]);
  (739662102718729000, [0x542b]);
  (740520477087868200, [0x5c118870]);
  (740736226901870200, [0x5766]);
  (740952443202319800, [0x559c66977d507ed3]);
  (742479190415398600, [0x8feb]);
  (743806643536268300, [0x5fd96b23]);
  (744926476067271200, [0x5bfb5c0b]);
  (746515612800934700, [0x6d41]);
  (746744707975590200, [0x5584]);
  (748596612752314000, [0x8b198c26]);
  (749300015418052000, [0x4ece5f9e]);
  (749771714405865900, [0x9686]);
  (750008400906892500, [0x596266a27545]);
  (752893216340658360, [0x52b352de]);
  (753382214870077500, [0x96f6]);
  (753627613766234200, [0x504f8106]);
  (754367444514378700, [0x5de780838085]);
  (754615276115825400, [0x539a832b]);
  (754863723448591500, [0x521a525b611a]);
  (755112789579836800, [0x4e4f]);
  (755863731782049900, [0x52a852d5]);
  (756115304241774700, [0x611f8a6b8be7]);
  (756620355820381500, [0x612461a4]);
  (758408398348166400, [0x9ebb]);
  (759184598881715300, [0x5ec9]);
  (759444677051721050, [0x8fc5]);
  (759705433392429100, [0x723d]);
  (759966871449836200, [0x6deb]);
  (760491807038450600, [0x8a6d8be1]);
  (761284413565692650, [0x8caa8d2a]);
  (761550017971504200, [0x76f4]);
  (762083352569040500, [0x7262]);
  (763972747505036700, [0x8427856d]);
  (765344511127916600, [0x660f]);
  (766455633670423600, [0x7d0a]);
  (766735354132529800, [0x98a898ce]);
  (767015859225290600, [0x59a5707f71e6]);
  (767297153362952140, [0x708e]);
  (767579240997116200, [0x679c8cbb8d39]);
  (769001740090250950, [0x7a20]);
  (769288684333046300, [0x6d6a719f]);
  (769865054804721300, [0x5404]);
  (771320684582142050, [0x6bb7]);
  (772500639275257500, [0x535a6602]);
  (772797816314173200, [0x7d057ea2]);
  (773095879127987000, [0x501272e18fbd907c]);
  (774903157233956500, [0x4e135c08]);
  (775819194173823000, [0x5b9e5be6]);
  (776434580731260750, [0x6070]);
  (777364819997492100, [0x9661]);
  (777676832731116450, [0x60ac61f8]);
  (778303794032476050, [0x503c5351]);
  (778934710951802500, [0x91ce]);
  (779888613256478400, [0x8654]);
  (780208613529545500, [0x93ae9547]);
  (780529641092570300, [0x5a075b0c]);
  (781174804620719150, [0x751c]);
  (781824157551774000, [0x614e8edf8f6f]);
  (782477754649752550, [0x540d624e7f9e]);
  (783135651759556800, [0x5225522b]);
  (783466230573006800, [0x62a26436]);
  (783797905835606100, [0x4e119178919c]);
  (784130684844873600, [0x62e564c1]);
  (784464574971425050, [0x6ed1]);
  (784799583659953300, [0x84ec]);
  (785472986878087600, [0x5ba15be9]);
  (786833552083665600, [0x5b815be7]);
  (788212884296899100, [0x60f6]);
  (788560710734531600, [0x7cdf]);
  (788909751228508400, [0x59297626]);
  (789611508494373100, [0x90d1912d]);
  (791746820941430000, [0x5d07]);
  (793561752791997700, [0x6cae]);
  (793928725680894000, [0x57f76267]);
  (795037794350309750, [0x6c926ca16d516e3e]);
  (795410234259408000, [0x54cd97ff]);
  (796159301432323800, [0x60158000]);
  (796914021995862050, [0x51c96dbc]);
  (797293529092717300, [0x5e7c]);
  (798440769208940900, [0x60ed615a]);
  (798826126140539900, [0x5206]);
  (799212973818331900, [0x523a66b46e7f6fd5]);
  (803166057693995400, [0x5306]);
  (803975778717257400, [0x4f53602a65639ad4]);
  (804383111256021000, [0x61c2]);
  (805202787976438800, [0x8150]);
  (805615159694825000, [0x51675185]);
  (806029238961428300, [0x7316]);
  (806445039976294500, [0x4fa550e58e0f]);
  (807702918196980600, [0x8cb48d35]);
  (808125751807932600, [0x65f66642]);
  (808550380896077800, [0x8fa8]);
  (808976820774723600, [0x59d48abf8c03]);
  (809835195143862700, [0x8cbc8d34]);
  (811574369415049500, [0x62d8]);
  (812455432383265100, [0x6696]);
  (813344327124989700, [0x7b28]);
  (813791755164481900, [0x654c6575]);
  (815146177675257500, [0x53d7]);
  (815601759328843600, [0x6676]);
  (816059426031584900, [0x6d69]);
  (818379715739551200, [0x69ae8363]);
  (818850304843292400, [0x62b166f48e4a92d2950b]);
  (819323118962887000, [0x6194]);
  (819798179238746800, [0x6177]);
  (820275507114012600, [0x7d1b7eb7]);
  (821721315431535600, [0x66138d85]);
  (823188334406315000, [0x8cde8d4f]);
  (824677195655690000, [0x5178]);
  (825178449838044500, [0x7e967ea4]);
  (825682229241040100, [0x8840]);
  (826697466387442000, [0x66746f47701f783496489673]);
  (827208976454119000, [0x6d456dfa98fd9971]);
  (828239913420005200, [0x629181f4]);
  (829806525094445000, [0x4eae]);
  (830864736027498700, [0x542c5a49807d]);
  (831398070625035000, [0x758f]);
  (831934264939173600, [0x607c60f1653e]);
  (832473349802661200, [0x5d0e7a777aae82738277]);
  (833015356549595200, [0x505c8a988bf1]);
  (833560317026351600, [0x5c0a]);
  (834659229183911000, [0x90c19b31]);
  (835213247221472700, [0x5b9c]);
  (835770351726418200, [0x68ee]);
  (836330577281285200, [0x4fca60cb6d2a]);
  (836893959053110800, [0x604d6e3a80ae9aaf9ed8]);
  (837460532806678500, [0x7aef]);
  (838603402389040800, [0x4e1f4e2251cc5608]);
  (839179772860715700, [0x6d016f54]);
  (839759484629148500, [0x7247]);
  (840929088605467500, [0x501482db]);
  (841519060818186300, [0x96c5]);
  (842112534370167900, [0x98399893]);
  (843310153474839400, [0x90aa]);
  (843914384920435600, [0x674296dc]);
  (844522289528073800, [0x4e0b523b54c07d627eda]);
  (845749298787255200, [0x5bb3]);
  (846368495812047400, [0x79bb92b3951096e2]);
  (847618512088470600, [0x59a95af5]);
  (848249429007797000, [0x5de5]);
  (848884351775663000, [0x50f5968f96a8]);
  (849523331585540000, [0x8cea8d28]);
  (850166420618569000, [0x4ec16d6e]);
  (850813672069130800, [0x70bd71be9760]);
  (852780948629001200, [0x52fb5300]);
  (853445402900868200, [0x6027]);
  (854114301715947700, [0x4e0a]);
  (855465673632620100, [0x6e4d9759975c]);
  (856148270139660100, [0x50b2900a905c]);
  (857527602352893600, [0x54466de1]);
  (858224469284503000, [0x903c]);
  (858926226550367600, [0x5730]);
  (859632943272676900, [0x7a9d7aa9]);
  (862510839727681100, [0x9192]);
  (863243443736888400, [0x540968d8]);
  (863981454466650700, [0x5212528377ee]);
  (864724952315402500, [0x72e0]);
  (865474019488318400, [0x5636]);
  (866228740051856700, [0x8d77]);
  (866989199990378600, [0x574e597859e6]);
  (867755487264935400, [0x7965]);
  (870090223664634600, [0x9b41]);
  (870880741615345900, [0x4ed350096587]);
  (871677558580263500, [0x4e564f2050b37528]);
  (872480775749990000, [0x51dd]);
  (873290496773252000, [0x608560a6786c]);
  (874106827837168000, [0x4f36519257238056]);
  (875759758032289000, [0x9999]);
  (876596582999340700, [0x5a345afb]);
  (878291538830718100, [0x66a766d672807701]);
  (879149913199857200, [0x5b886115773c]);
  (880015719474168600, [0x77eb77ef95ca9614]);
  (880889087471044000, [0x65af]);
  (881770150439259700, [0x4efb633a76f2900d]);
  (882659045180984200, [0x6021785578a97bc08282]);
  (883555912179260300, [0x73b2898b89c1]);
  (884460895731252000, [0x7e8f7f208fe5]);
  (885374144087579400, [0x68076a1975d27662840e9752]);
  (886295809598071700, [0x4ea2607361c767af]);
  (887226048864303000, [0x767d77dc]);
  (888165022899287000, [0x817c9766]);
  (890069842396356500, [0x5728602f72f073198d649187]);
  (891036033487530200, [0x50cf53568ce3]);
  (892011650982066600, [0x60b695f7]);
  (892996880626367700, [0x5c0f7c98]);
  (893991913711684600, [0x4e89722d]);
  (894996947297034700, [0x60c66dd8]);
  (896012184443436500, [0x9eef]);
  (897037834460155500, [0x6101]);
  (900179454083493300, [0x788d7919]);
  (901248982995168100, [0x5f3160ec611c99ac9a6c]);
  (902330074605589700, [0x7a98]);
  (903422981658808800, [0x50fb626b6383]);
  (904527965277467200, [0x6df379f07a318a7c8bd9]);
  (905645295337279800, [0x4fee51d16e4a7619]);
  (906775250862673000, [0x9762]);
  (907918120445035400, [0x5c5e5c6c6069]);
  (909074202685143000, [0x624b62ff6d127051]);
  (910243806661462000, [0x9753975a]);
  (911427252426162400, [0x4fcf516561d261f66c996cfc6df56e0a6f517a1a]);
  (912624871530834000, [0x599673847fd48165959295f2]);
  (913837007584068300, [0x4e9b61c882d7]);
  (915064016843249700, [0x4ed77410746383498c418dcb]);
  (916306268843105400, [0x80fd]);
  (917564147063791500, [0x61277a847b3c7c6086ee883b]);
  (918838049641534500, [0x6b7b7e1d7f1c]);
  (920128390125125300, [0x5eb7606c660c9b6f9c81]);
  (921435598281860600, [0x53c253c35bb671e5]);
  (922760120956862700, [0x56a356c2]);
  (924102422990076800, [0x4e497fa9]);
  (925462988195654600, [0x93d794ff]);
  (926842320408888100, [0x5c40618b]);
  (928240944606362100, [0x541d]);
  (929659408105557700, [0x4e3a70ba70eb71d9898f89c48ce28d24]);
  (931098281850767700, [0x7518777f]);
  (932558161792883000, [0x53475fff]);
  (934039670371397000, [0x6f66]);
  (937070205320930000, [0x552f75bc7e397f2583bd9177]);
  (938620623974526500, [0x5026563961a863ea]);
  (940195459671340400, [0x520162bc]);
  (941795493805984500, [0x64697d207dba7dbf7eee7ef581c38fc29a4d9a81]);
  (943421545893162500, [0x4f55]);
  (945074476088283600, [0x9732]);
  (948464631255851700, [0x51cb5fd08052]);
  (950203805527038600, [0x62ee7f577f8580a4819a]);
  (951973763236978800, [0x98029876]);
  (953775613787246500, [0x5197600560b5]);
  (955610527654066300, [0x60c56d17932f9519]);
  (957479740955281500, [0x754f]);
  (959384560452351000, [0x4e2755aa6b79]);
  (961326369038061100, [0x547d5634]);
  (963306631767679100, [0x6062627c66668499]);
  (965326902499431000, [0x52bf52e2677f766b7672803f]);
  (967388831219704700, [0x51436b499f779f8c]);
  (969494172139487800, [0x5f205f3562d97275727d8b588bc6]);
  (971644792661584200, [0x4fed5109656667289052]);
  (973842683333461800, [0x98c498d8]);
  (976089968918667600, [0x8ae78c10]);
  (978388920741137400, [0x51db51dc9163]);
  (983151725640062900, [0x4fa04fe070ab72fc762092b79500]);
  (985620986899100000, [0x591f592080af9165]);
  (988152767697529000, [0x58025e055e256a2a6a6b7f3a822c]);
  (990750316337855200, [0x6b668033]);
  (993417141046071200, [0x517b73879119990a]);
  (996157038464882700, [0x7df47ec38ed28f699006]);
  (998974126161552300, [0x4fd7808989e38d70]);
  (1001872879848877500, [0x527d59165e0c6046605262d4851a8af38c198fdc9060]);
  (1004858176163845800, [0x609a641e6f847d937ecf908b]);
  (1007935342030521000, [0x96bd96cb9ecf]);
  (1011110211861979000, [0x5ff860eb618a6bd292ea94fa]);
  (1014389194144278200, [0x524a6ee16eff8e81]);
  (1017779349311846300, [0x5b5f5cfb70e771d2]);
  (1021288481292973300, [0x4f864ff15b7160f9655767657a888d25]);
  (1024925245710060800, [0x4ef750f95c1a626d6cb999ed9a87]);
  (1028699278508345600, [0x54135687571f6b8a7d0d7eb3]);
  (1032621349823673600, [0x5ff583018e69]);
  (1036703549275699200, [0x5a1f5a405be175c5]);
  (1040959510717578800, [0x4fc352b252c1670d6bdb836b852d901799b49a6f]);
  (1045404686974662100, [0x517362d691d195dc9b3c]);
  (1050056688538151500, [0x4e0750286c347099714a78ca80cc842c8df78e7a958995ed]);
  (1054935704955094500, [0x51a55be55f1b60ad6173617575f49867987e]);
  (1060065034393849700, [0x502562a06473655e740676878c61]);
  (1065471756520877200, [0x62d771b977cd82b1]);
  (1071187597904872000, [0x5ced6d0b717d7d2f8a0e8ba8931a94ee]);
  (1077250060086515600, [0x53eb608d6c617a4e7dbd7e317eb57ef080e1829c856a9633967d9896]);
  (1083703912200272700, [0x5965596764a965e576ae8e6d]);
  (1090603199348967900, [0x4f1a501c5dee60206703810f81df8c9e8d1e95f99b27]);
  (1098013996564340000, [0x4e8f51416b3a71927cdc8367866799c19a73]);
  (1106018267331693700, [0x520752545f6a65d66c796d366ec271e0746976d876e4817b81a983b9890a]);
  (1114719405030656700, [0x4e45664366fc671768407cb27e7e7f318fa38fbe90549280939694f695019862989f]);
  (1124250423011089000, [0x59995a9a60fa6fb974f799d19a7d]);
  (1134786474576871700, [0x4f0f505a71a87e5a7f2d985b98a0]);
  (1146564778142510100, [0x4e1651f85473566a584c5e265e36627f65f766e07b037be4803d8822884c97099ef4]);
  (1159917917404962400, [0x52ac536455a760e761fc662d8a8d8ba49e75]);
  (1175332985387688300, [0x55b7567457cb6096629570c2721b7b4b800380d69088]);
  (1193565141067083600, [0x5c145f2f5f4e6b3e723e725b79fd7a6281ed84739f13]);
  (1215879496198504700, [0x51ac51c0598261e66b206bc56de872b772de7370737773b073fe76938054806f8071813881a881c9834f83ab]);
  (1244647703443682700, [0x4eb54f9d51e1545b55c6598d5c485c9160b160dd616762126db56eb7893b8dcc976198db98de9bc19ca0]);
  (1285194214254499200, [0x4e3d4f88565c5695631a646f64cd65e972ce74707a9284dd857485cd85d0860a864e9646967897389e97]);
  (1354508932310493700, [0x4e714e824ea44ecb4f3851b653e35751592d5b9b5c3d5de65f175f6d60dc625162c96311639264b2672c674368976b0a; 0x6b466ce56d476dcb6ebd6f867070716673ed76e1798f7ade7af67e5e7ed5817f8fa98faf9020920d949d])
].
(** prob_emit.go:1324-1489 probEmit, state 101 *)
Definition emit_101 : list (Z * list Z) := [
  (246090362956978930, [0x5b8c]);
  (246878723619832470, [0x76f4]);
  (270366861046277400, [0x7a81]);
  (271450742625088800, [0x79ef7a4d]);
  (291987401746761300, [0x8fc5]);
  (295176148082493260, [0x6b63]);
  (305712199648275850, [0x516c]);
  (310025385698297870, [0x666e]);
  (321453701406235800, [0x5168]);
  (323900505294081200, [0x5145]);
  (330304683936832830, [0x4e2556b4]);
  (336997194064146600, [0x660e]);
  (341207536553819300, [0x786e78ba]);
  (356012014786353300, [0x52aa]);
  (361222495624649880, [0x53ca]);
  (368518256052281770, [0x5bc6]);
  (378788299480968240, [0x663e986f]);
  (388380056966722660, [0x4e3b]);
  (393875001419719340, [0x5f7b5fb9]);
  (394140136351881360, [0x8a8d8ba4]);
  (411228416822434400, [0x4ed4]);
  (419202071104758700, [0x9806987a]);
  (424334392718975100, [0x968f96a8]);
  (435597865824595500, [0x575a5805]);
  (474187756430925800, [0x5c0f]);
  (484559739050962350, [0x5207]);
  (490642695135741400, [0x5927]);
  (497367917836658200, [0x7d277dca]);
  (500908110541749800, [0x8fc7904e]);
  (507834980093047100, [0x8a738be6]);
  (525106249861778800, [0x614c]);
  (530321897821215000, [0x76f27cbe]);
  (557547658033829900, [0x90029069]);
  (584741029582194100, [0x7a337a69]);
  (587150784740100100, [0x59a5]);
  (620920034042744400, [0x4ed35009]);
  (627089390943278300, [0x8e0a8e34]);
  (655857598188456400, [0x7c97]);
  (680470905142347250, [0x72fc]);
  (686050041105188900, [0x6177]);
  (692832300739065000, [0x52e4]);
  (694602258449005000, [0x72ec7368]);
  (695499125447281050, [0x4e135c08]);
  (700108236167307800, [0x523b61e6]);
  (701056110562762100, [0x6025]);
  (717588508605300500, [0x679c]);
  (724568084798854700, [0x5076]);
  (732071603393146100, [0x5747]);
  (736045636258097500, [0x6c926ca1]);
  (753738707074005400, [0x60ca9a5a]);
  (758698401187942600, [0x865a865b]);
  (763916976504999600, [0x4fa550e5]);
  (769422954223302300, [0x84ec]);
  (771327773720371700, [0x5306]);
  (775249845035699900, [0x5bf95c0d]);
  (777270115767451800, [0x731b]);
  (779332044487725400, [0x6c886c8970ed71b1]);
  (790332134009158250, [0x8010]);
  (795094938908083700, [0x62db]);
  (823053425129999800, [0x9686]);
  (829722562579867000, [0x58ee58ef]);
  (836868458978081600, [0x4f4e]);
  (844564563091694400, [0x5766604d]);
  (857347900242683000, [0x60a0]);
  (861999901806172300, [0x65e07121]);
  (877414969788898000, [0x54689031]);
  (883130811172892800, [0x627c832b]);
  (889193273354536400, [0x75be9f4a9f50]);
  (895647125468293500, [0x514751f659d4]);
  (902546412616988600, [0x4e0d]);
  (909957209832360900, [0x6bb7900d]);
  (917961480599714500, [0x5e737262]);
  (926662618298677500, [0x6046605275b2]);
  (936193636279109900, [0x52c7]);
  (946729687844892500, [0x51c66e9682f1]);
  (958507991410531000, [0x5b8966a275458349]);
  (971861130672983200, [0x60b28d85]);
  (987276198655709000, [0x72e07b3c7c607d1b7eb78f158f7b]);
  (1005508354335104400, [0x52b352de80ae9aaf]);
  (1027822709466525500, [0x6127673a6a5f808380858301]);
  (1056590916711703600, [0x51d16b666e4a73168fbe9054]);
  (1097137427522520000, [0x5b9e5be67dbf7ef582e69ed8]);
  (1166452145578514500, [0x548c5b6462c965576e057275727d8cbb8cbc8d258d348d39])
].
(** prob_emit.go:1490-1490 probEmit, state 102 *)
Definition emit_102 : list (Z * list Z) := [].
(** prob_emit.go:1491-1587 probEmit, state 103 *)
Definition emit_103 : list (Z * list Z) := [
  (143293313454840330, [0x5b89]);
  (188507662395811500, [0x56f0]);
  (202538625237350200, [0x77db]);
  (259125004081319870, [0x75db]);
  (260087768041858340, [0x5371]);
  (266067525126062400, [0x536b885b]);
  (309771470496738340, [0x8150]);
  (320168149217660600, [0x6050]);
  (322042618346275700, [0x6e296eab]);
  (360575481161194800, [0x9ebb]);
  (404373161710673900, [0x52a852d5]);
  (451373524635247500, [0x4e2556b4]);
  (481297814120533200, [0x793c79ae]);
  (489031134460850200, [0x60466052]);
  (516633633251807000, [0x6666]);
  (539612442655094900, [0x60b2]);
  (547408596802066100, [0x96349670]);
  (551078733487108900, [0x8ca78d2b]);
  (566182759228395400, [0x54c0]);
  (569497979960085500, [0x60b695f7]);
  (575279937048968100, [0x72fc]);
  (587955107612882500, [0x7d2f]);
  (590695005031693900, [0x51b7]);
  (600922889943735800, [0x72e0]);
  (605648178428790300, [0x81ea]);
  (608927160711089400, [0x959295f2]);
  (615826447859784600, [0x4f4e70e67169]);
  (623237245075156700, [0x8010]);
  (625179053660866900, [0x514751f6]);
  (654603000960660900, [0x504f]);
  (671788026653326800, [0x67d4]);
  (696474034446479400, [0x89e3]);
  (700556233898504900, [0x7a7a]);
  (704812195340384500, [0x521a525b]);
  (718788389577900400, [0x73258ca08d1f]);
  (729324441143683000, [0x51c46dd2]);
  (747556596823078500, [0x5de5]);
  (769870951954499500, [0x535160a0]);
  (778572089653462400, [0x5e7d]);
  (810417462765315800, [0x72c2]);
  (823770602027768100, [0x96f6]);
  (839185670010494000, [0x4f2450b767af9761]);
  (857417825689889500, [0x51b25999885d]);
  (908500388066488500, [0x5c345c37607660e19178]);
  (949046898877305000, [0x516c54686e058ff790319ad8]);
  (1018361616933299500, [0x559c591a5fe75feb618265e0712172b9733675bc7cbe7f8e82cd84bc8aa08bda90aa91ce9eef])
].
(** prob_emit.go:1588-2462 probEmit, state 104 *)
Definition emit_104 : list (Z * list Z) := [
  (162718034466129000, [0x4e3b]);
  (322076410844050800, [0x6240]);
  (328138873025694300, [0x5927]);
  (346644626686977240, [0x6574]);
  (354448185773046200, [0x4e2d]);
  (360350638301474820, [0x77ed]);
  (363559469756624850, [0x4e0a]);
  (386141867123011700, [0x65b0]);
  (393415117034820000, [0x4e00]);
  (417951662993759050, [0x7279]);
  (418850040737210200, [0x4e3481e8]);
  (419927454051418100, [0x516c]);
  (422760832372869300, [0x975e]);
  (422878203278362100, [0x540c]);
  (423614909129836900, [0x9ad8]);
  (431905500870797300, [0x4e8c]);
  (433134096990771400, [0x6709]);
  (434641827944891550, [0x552f]);
  (443475153369646100, [0x5e7f5ee3]);
  (450420833467445200, [0x65e07121]);
  (452689213873950700, [0x535555ae]);
  (456355284038104900, [0x5929]);
  (456437385848956500, [0x6c11]);
  (490909356454079500, [0x56fd570b]);
  (493374269981544900, [0x591a]);
  (499184525219917400, [0x5c0f]);
  (501735683985658300, [0x88c588dd]);
  (505554449506675050, [0x4f18512a]);
  (506769859471743400, [0x4e09]);
  (507519948225555500, [0x65e5]);
  (507931471440066200, [0x8d85]);
  (513368744243265100, [0x73b073fe]);
  (514316618638719450, [0x5e38]);
  (518048394939439000, [0x6c34]);
  (523679280249554400, [0x91ce]);
  (527617442964064400, [0x65e2]);
  (528204939408366500, [0x53cc5e7496d9]);
  (528965399346888400, [0x5168]);
  (530331774148759000, [0x5de8]);
  (530849016681257900, [0x959395f4]);
  (536447991102432800, [0x9996]);
  (539228522410466600, [0x4e135c08]);
  (545832863642165660, [0x53e4]);
  (546134522996108300, [0x9644]);
  (548477982250882700, [0x6df1]);
  (549306144334054800, [0x8ca08d1f]);
  (557875069340229500, [0x6162]);
  (558215398653400300, [0x6cd5]);
  (559819098544382000, [0x753596fb]);
  (564306273962099500, [0x6df7]);
  (564669250767157400, [0x5916]);
  (566627697694776300, [0x4e07842c]);
  (568499243275911950, [0x4e245169]);
  (571828616085858200, [0x673a6a5f]);
  (575407526871016800, [0x8fdc9060]);
  (577177484580956900, [0x91cd]);
  (581960393349945000, [0x6b63]);
  (584440462109398000, [0x624b]);
  (584588281796329050, [0x519b8ecd]);
  (585181755348310500, [0x5211]);
  (585928584809063100, [0x76f4]);
  (588972959950535500, [0x8f158f7b]);
  (589748759031629350, [0x4e1c6771]);
  (592913580126707500, [0x4e0b]);
  (594208096585911250, [0x79c1]);
  (595025762629635800, [0x521d]);
  (599560544627481700, [0x7701]);
  (600250202533387800, [0x7acb]);
  (601293690262645700, [0x51675185]);
  (601819545987992400, [0x9577957f]);
  (604852784772916000, [0x8cc78d44]);
  (607236032309725800, [0x4ece5f9e]);
  (607794173293545300, [0x668266ab]);
  (609108746214795500, [0x6f5b6f5c]);
  (616563176621173400, [0x5f69]);
  (616971340453138300, [0x60df]);
  (620086857231117900, [0x4eba]);
  (620509690842070000, [0x76db]);
  (622434883992002100, [0x6700]);
  (625728266159127000, [0x5317]);
  (626175694198619050, [0x5fae]);
  (626850612396111900, [0x6b21]);
  (627530116709394800, [0x72ed72f9]);
  (628903135990585050, [0x603b7e3d]);
  (629365030576214500, [0x836f85e5]);
  (630763654773688500, [0x56fa]);
  (631707057997024300, [0x8de8]);
  (632420497408411700, [0x5f71]);
  (634836073796345350, [0x8349]);
  (636562380538723400, [0x7a7a]);
  (637813961331906500, [0x969096b1]);
  (639849655038780900, [0x984d989d]);
  (645127924996572800, [0x4f4e]);
  (650987341423178100, [0x5206]);
  (653607578662580500, [0x4e1a57ce696d]);
  (653902999852323600, [0x96c4]);
  (654794536218118850, [0x5728]);
  (655694092508976700, [0x8001]);
  (656601814324088300, [0x9694]);
  (656906228562211150, [0x5148]);
  (657825071167651700, [0x9752]);
  (658133237821392600, [0x540e5f8c6241]);
  (658442357078359800, [0x4e0d706b]);
  (659688479122141000, [0x4e6666f8]);
  (660317412012897400, [0x6c38]);
  (661268290809800200, [0x68c06aa2]);
  (666498240750085000, [0x5f027570]);
  (667171643968219500, [0x4e94]);
  (669219497102573500, [0x53bf7e23]);
  (669564920589382200, [0x826f]);
  (672372122467250900, [0x5d2d5d846d88]);
  (674167502828910500, [0x533b91ab]);
  (675260409882129500, [0x5e02]);
  (677108891349539800, [0x5b9a]);
  (678992186182849000, [0x60256728]);
  (681689844952669200, [0x607660e1]);
  (685268755737827800, [0x82308266]);
  (686490766871305300, [0x4eb253866b7789aa]);
  (686901445066570650, [0x5934982d]);
  (687727896051560000, [0x539f]);
  (690249037986209600, [0x6e38904a]);
  (691103744044055500, [0x524d]);
  (693712587652485300, [0x6de1]);
  (695042984215121500, [0x7d2b]);
  (697300416418975400, [0x79d1]);
  (700078372829683000, [0x6d456dfa]);
  (700548961933424200, [0x6d3b96cc]);
  (701974164204144400, [0x7b49]);
  (702935710074088600, [0x9ed1]);
  (703906591486784700, [0x50195fc3]);
  (705380819660505050, [0x8f098f7d]);
  (706375852745821800, [0x8fde9023]);
  (708907633544250800, [0x5171]);
  (709938570510136900, [0x533a5340]);
  (710458052197847300, [0x52a9590d8f2a8f6e]);
  (711505182184576900, [0x56db]);
  (715806920692946000, [0x6210]);
  (716911904311604400, [0x81ea]);
  (718592616143242600, [0x65e7820a8fd1]);
  (720302059479172600, [0x53ef53f2]);
  (720878429950847600, [0x7a057a0e]);
  (721458141719280200, [0x504c]);
  (722041233750359500, [0x5947]);
  (722627745695599360, [0x7532897f]);
  (723217717908318100, [0x5357]);
  (724408208158950000, [0x7c89]);
  (725008810564971200, [0x53f3]);
  (726220946618205700, [0x4e1d7d147d727eaf]);
  (727447955877387100, [0x7247]);
  (728067152902179200, [0x534a6c146c238ff7]);
  (728690207877242800, [0x5c657236]);
  (730583008865794700, [0x72ec7368]);
  (731221988675671800, [0x98df]);
  (733819537315997800, [0x8fb9908a]);
  (734479605719133000, [0x6cbf]);
  (736486362024214000, [0x6a21]);
  (737164330722751900, [0x54285678]);
  (738534215158568050, [0x7b2c]);
  (739923126374634800, [0x7f8e865a865b]);
  (742760196087556300, [0x4efb6bcd85cf]);
  (743482220884905050, [0x6bdb]);
  (747927397141988400, [0x5f375f3a]);
  (748687857080510350, [0x55b756746751]);
  (750226348964458300, [0x5212528383ab]);
  (753376215670395400, [0x801090e8]);
  (755805484927299800, [0x767e]);
  (757458415122420900, [0x80ce]);
  (758295240089472600, [0x663e986f]);
  (761714376564300450, [0x4fbf88f8]);
  (762587744561175900, [0x5de5]);
  (763468807529391500, [0x4e16]);
  (765254569269392100, [0x6d32]);
  (767072801177711100, [0x526f]);
  (768924705954434900, [0x638c6697]);
  (769863679989418800, [0x5fa179a6]);
  (771768499486488200, [0x6ee16eff]);
  (772734690577661900, [0x7e3e7ee9]);
  (773710308072198400, [0x5c165e73]);
  (776695604387166500, [0x91dd9488]);
  (778736491550287200, [0x677f6e05]);
  (780819900240571400, [0x5730]);
  (784028731695721400, [0x5b9e5be67cbe8cea8d2891d1]);
  (786226622367599000, [0x928094f696d5]);
  (787343952427411500, [0x52a3]);
  (788473907952804900, [0x7d557edd]);
  (790772859775274700, [0x968f96a8]);
  (791942463751593800, [0x4e03751f]);
  (793125909516294100, [0x54e5]);
  (794323528620965700, [0x6d41]);
  (795535664674200200, [0x53757d057ea2]);
  (798004925933237350, [0x519c8fb2]);
  (800536706731666400, [0x68c9]);
  (803134255371992400, [0x65638239]);
  (804458778046994500, [0x63d0661f8eca8f66]);
  (805801080080208500, [0x6d77]);
  (807161645285786400, [0x5225522b8d77]);
  (808540977499020000, [0x52a077f3]);
  (809939601696494000, [0x5e9461c96bd57562]);
  (811358065195689600, [0x5ae95dde]);
  (812796938940899600, [0x8a188bb090029069]);
  (814256818883014900, [0x6731]);
  (815738327461528800, [0x7a7f]);
  (817242115197983000, [0x85e4]);
  (818768862411061700, [0x68d574f6]);
  (820319281064658200, [0x516b7d277dca88969636968e96c6]);
  (821894116761472300, [0x5f0080f681a0958b]);
  (823494150896116400, [0x4eff]);
  (826773133178415300, [0x7ca5]);
  (828453845010053600, [0x5b6a5b7f70c877ff7926]);
  (830163288345983700, [0x5373]);
  (831902462617170500, [0x54089867987e]);
  (833672420327110500, [0x4fe17a00]);
  (835474270877378400, [0x5e9f5ee2901f]);
  (837309184744198000, [0x6b276b50]);
  (841083217542482800, [0x674f]);
  (843025026128192900, [0x5efa6bb7]);
  (845005288857810800, [0x504767816975938f]);
  (847025559589562800, [0x536b6298767d885b]);
  (849087488309836400, [0x959295f2]);
  (853343449751716000, [0x53ea88ab98a898ce]);
  (855541340423593500, [0x514953675939593e81e588779632]);
  (857788626008799300, [0x59047a337a698655]);
  (860087577831269300, [0x51fa6a2a6a6b]);
  (862440627572288700, [0x54115bb6771f9006]);
  (864850382730194800, [0x5ae17c7b985e]);
  (867319643989231900, [0x65ad65b767a368d77f577f85975b]);
  (869851424787661000, [0x53f07a0b]);
  (872448973427986900, [0x671f786c]);
  (875115798136203000, [0x655e]);
  (877855695555014600, [0x4ea4507665cb98109884]);
  (880672783251684200, [0x58546ce2]);
  (883571536939009400, [0x4e737d447ec482f192c1943594c194dd]);
  (886556833253977500, [0x556e56d35fe06696751a8089]);
  (889633999120652800, [0x4f8f570657138f038f838fdd90559f8d9f99]);
  (892808868952111000, [0x5207]);
  (896087851234409900, [0x52fb5300534e5fd8687683ef88e18d6491cc9d5d9e459ea59ea6]);
  (899478006401978000, [0x4f1e50985f316fd2701576d292fc94a29ebb]);
  (902987138383105000, [0x59736c496f2279bb87ba96e2]);
  (906623902800192600, [0x5b665b787b528df3]);
  (910397935598477300, [0x4fdd53d158a862976388666e6a586a59767c7af97de87f1684dd85cd900f]);
  (914320006913805400, [0x51ac5343591c5ae3662776c879fb]);
  (918402206365831000, [0x4e324fc453cd76e596349670]);
  (922658167807710500, [0x4e5d516d793a8ab28bfe980298769f4a9f50]);
  (927103344064793900, [0x4e5956e257185e085e2b63a568547c9781508edf8f6f]);
  (931755345628283200, [0x538556685ef37f5080b2]);
  (936634362045226400, [0x6d536eda6efe6fc371df72068425888b]);
  (941763691483981400, [0x5dfe659c667a7bc08282]);
  (947170413611009100, [0x542f555f5c407bb182b186799b54]);
  (952886254995004000, [0x520059d15de65e7c5f80626964f4754c88d98d6d9999]);
  (958948717176647300, [0x4f2050b3514d8a088ba1]);
  (965402569290404400, [0x4f3853eb6444651d67f370ed716771b176267dda7ebf7ffc901a]);
  (972301856439099600, [0x4e275192547d55aa5c5570b988c28b669bae9c9c9ede]);
  (979712653654471800, [0x4f2a507d5bab5bae5f6268116a39981898869dc29e5e]);
  (987716924421825500, [0x4e614e9254385b645eb6679c75379109958995ed9806987a]);
  (996418062120788400, [0x53055546589e5c115faa672c74f777eb77ef958395ea]);
  (1005949080101221000, [0x4ebf51045361538b58d35f925ff57cfb827285849375952e]);
  (1016485131667003500, [0x65f766e06ce87b807c2191529ec39ec4]);
  (1028263435232641900, [0x53a258c15ec25fb7627f62f1644664fa6e567d007e547eaa7ec78f3b8f908fc7904e96ea]);
  (1041616574495094100, [0x4f01504f51b753f8571f586b5ead62bd63466570657868396b4c6e7f6fd5781678da88408cab8d2f]);
  (1057031642477820000, [0x4e8b509951ed589958eb590759515bc65f27619168217246751878c1795e7da07db27eff7f5189e689f8]);
  (1075263798157215500, [0x4e704ea7534f5354548c5bbd5bec5df4655965f666426cb96e2f6f2b704c70eb71d9752277ee78e87ae08cb78feb]);
  (1097578153288636400, [0x4e58514554d1555e57505a5a5bf95c0d60b6630963a0660e661367dc690d6ac36bd46cf077e5793e7c738054806f843d; 0x8aaa8bf495f7965098fc997299ac9a6c9df99e70]);
  (1126346360533814600, [0x4e2653d8542c5b545bb95e7662df64ec7075751c773c7d617edc807d8102811a81738b8a8c9e8d1e8fd4974898db98de; 0x9a0e9a91]);
  (1166892871344631000, [0x4e9b4ed34f19500951bb51cd521b524a52755316534153e35404540a592559575c065c075f6a5feb6302639b655766f4; 0x68d86e296eab740677e9794879cb7a977fa480a580be814e851a86cb87028747880588618a028ba28c468d258ff090fd; 0x9433956d963f]);
  (1236207589400625500, [0x4e014e544f5c51a052a852d553475377538254c155ac56ed571257825bcc5bfc5c0e5e035ee0606262806551672a6795; 0x6807684168436a196d0b75c5781478f779be8a0e8ba88caf8d2e8d709171917891ac932893ae951a9547])
].
(** prob_emit.go:2463-2463 probEmit, state 105 *)
Definition emit_105 : list (Z * list Z) := [].
(** prob_emit.go:2464-2572 probEmit, state 106 *)
Definition emit_106 : list (Z * list Z) := [
  (212320787466057450, [0x56e0]);
  (256813987225911900, [0x4e0d]);
  (272930491027647640, [0x7531]);
  (276253160566758730, [0x5982]);
  (277661719825070550, [0x4ee5]);
  (292242305626749270, [0x540c]);
  (294280332509014400, [0x800c]);
  (308889162954240340, [0x4f46]);
  (314175305606798760, [0x6240]);
  (316899913973030000, [0x867d96d6]);
  (330595781790930230, [0x7136]);
  (365533471406448340, [0x53e6]);
  (373601375647155050, [0x6216]);
  (376748187021028200, [0x53ea]);
  (381777305086045930, [0x6b64]);
  (397369058346155240, [0x53ef]);
  (404897918106957460, [0x5c3d76e1]);
  (410124265585689800, [0x4ece5f9e]);
  (411045648025373400, [0x4e8e65bc]);
  (411416591263700600, [0x5373]);
  (423028573016383000, [0x4e265e76]);
  (426767160592212200, [0x8fd89084]);
  (452716942831120100, [0x53ca]);
  (453374376520977850, [0x63a5]);
  (472216160515015900, [0x65e07121]);
  (475541607894803150, [0x4e00]);
  (475836072182958800, [0x4e0e8207]);
  (481570997039856700, [0x65e2]);
  (504614109853310660, [0x5176]);
  (507405359643381000, [0x8981]);
  (526849848628481300, [0x5426]);
  (529739935177256900, [0x5018]);
  (552206073793421400, [0x4e4b]);
  (566030484546193800, [0x603b7e3d]);
  (583106557985481600, [0x4f55]);
  (585021324926895050, [0x9664]);
  (586259183350159050, [0x8fdb9032]);
  (590345089869709200, [0x4e43]);
  (590530618679883800, [0x90a3]);
  (618282650899112000, [0x518d]);
  (619267880543413100, [0x52a0]);
  (619764159477626000, [0x5047]);
  (625655747831285500, [0x54ea]);
  (626317563615533300, [0x4e14]);
  (633616052891182200, [0x4e8c]);
  (644152104456964800, [0x51b56cc1]);
  (644470069748702800, [0x662f]);
  (654160450312663060, [0x56fa]);
  (662765939989030350, [0x53cd]);
  (669487837448035400, [0x8f498f6c]);
  (673026187836967100, [0x7d277dca]);
  (689577631684724500, [0x636263db]);
  (694970465887280000, [0x7e7c7ee7]);
  (720026550761540650, [0x7e317eb5]);
  (723826662579402050, [0x5c31]);
  (739007263866202500, [0x4e3a70ba]);
  (745789523500078600, [0x82e5]);
  (752594869824580100, [0x5c1a]);
  (760912620472470900, [0x8fd99019]);
  (787660556985897100, [0x5c14723e975e]);
  (792439623369531900, [0x6291]);
  (793848097357705800, [0x6545]);
  (799689173573347300, [0x7d9c7efc]);
  (803521060003561000, [0x6070]);
  (809974912117318100, [0x5225522b]);
  (848052161669097300, [0x5177]);
  (859678142280683500, [0x76f8]);
  (865313435935796700, [0x600e]);
  (879289630173312600, [0x679c]);
  (882679785340880800, [0x751a]);
  (893599714537379900, [0x752d8a2d8bbe]);
  (901603985304733500, [0x6bcb]);
  (917366879725091900, [0x66f4]);
  (933189280246581300, [0x5eb683ab]);
  (939073330248874600, [0x60df]);
  (966836503908702700, [0x5012]);
  (1040233421416722600, [0x6162]);
  (1048934559115685500, [0x5c828c48]);
  (1150094650283533500, [0x5b815be7]);
  (1178862857528711700, [0x6982]);
  (1288724086395522600, [0x53c8])
].
(** prob_emit.go:2573-3185 probEmit, state 107 *)
Definition emit_107 : list (Z * list Z) := [
  (270121338657847800, [0x4e00]);
  (291232623273531740, [0x4e0d]);
  (307280643302332820, [0x5df2]);
  (340022509184321640, [0x5927]);
  (387639045498248900, [0x76f8]);
  (402605775842024700, [0x5fc5]);
  (403580336885076100, [0x81ea]);
  (408412638234280800, [0x771f]);
  (413264451580131800, [0x6700]);
  (418512245304993400, [0x66f4]);
  (418899438640546200, [0x9010]);
  (422701021545761900, [0x5206]);
  (428746533056239300, [0x7279]);
  (433976869758330600, [0x6bd4]);
  (440305886569101550, [0x518d]);
  (440917679356083350, [0x751a]);
  (441001396397389700, [0x968f96a8]);
  (446953994328792400, [0x975e]);
  (447409350490778600, [0x53ea]);
  (448627173487457900, [0x8fdb9032]);
  (450974484429893250, [0x539f]);
  (452434817978291900, [0x5341]);
  (459334105126987100, [0x4ece5f9e]);
  (460763907137448300, [0x4ecd]);
  (461824048157910900, [0x5f537576]);
  (462525563311295800, [0x6709]);
  (463406524149643900, [0x5b9e5be6]);
  (463814854647581000, [0x7acb]);
  (466348433990987100, [0x540c]);
  (470373195904754700, [0x9577957f]);
  (472863055964764800, [0x5c31]);
  (473132166141910300, [0x51e05e7e]);
  (480506448096952300, [0x65e07121]);
  (480520263113897600, [0x96be96e3]);
  (483749520264643600, [0x4f9d]);
  (483792337649155600, [0x81f3]);
  (485520242409990800, [0x5176]);
  (487871563079262400, [0x53cd]);
  (490036084680654500, [0x8d8a]);
  (490142508103849900, [0x9ad8]);
  (490554062682157300, [0x5f88]);
  (492965680561238200, [0x5c24]);
  (493814208593914650, [0x91cd]);
  (497282207441159400, [0x4f3c]);
  (498135370942680800, [0x65e9]);
  (500384903441189700, [0x5148]);
  (501947435231497800, [0x7d427ec8]);
  (504777239538523100, [0x9996]);
  (507002916739591900, [0x5feb]);
  (507183129439292500, [0x5171]);
  (507743861667298000, [0x5230]);
  (510260295305967800, [0x6b63]);
  (512498703444321600, [0x8d768d95]);
  (512536755195161200, [0x901a]);
  (522157251825676700, [0x5ffd]);
  (523337455197840200, [0x4e5f]);
  (524167688811854000, [0x5f80]);
  (529321773232675500, [0x603b7e3d]);
  (529659954143413600, [0x67816975]);
  (530909828384974300, [0x5c3d76e1]);
  (531506160427387200, [0x7d557edd]);
  (537551370819114600, [0x4eb289aa]);
  (539675431903690050, [0x521a525b]);
  (540000472819944300, [0x65e5]);
  (540603338247959800, [0x8fde9023]);
  (546840745508384300, [0x672c]);
  (546894393578340600, [0x7d1b7eb7]);
  (549834981169892200, [0x4e135c08]);
  (552637069794107800, [0x7d937ecf]);
  (553121332241686700, [0x5374537b]);
  (555637006325777350, [0x8f038f83]);
  (556815223195603350, [0x591a]);
  (562892501289563700, [0x5e38]);
  (563050056072431600, [0x5373]);
  (563334281749324600, [0x66fe]);
  (565056812377512600, [0x4e92]);
  (565121183155403100, [0x8fc7904e]);
  (570852176628521200, [0x6c38]);
  (571536407830322900, [0x5c1a]);
  (571708199660925400, [0x7a76]);
  (572953890509454900, [0x679c]);
  (573197920611382400, [0x8f158f7b]);
  (573372593144876600, [0x7adf]);
  (574781067133050400, [0x672a]);
  (574923011798473100, [0x5b9a]);
  (575958180778071600, [0x4f55]);
  (578281334258890400, [0x6bd57562]);
  (584336910889859200, [0x521d]);
  (585474847438157900, [0x59cb]);
  (586506193350985200, [0x668266ab]);
  (586585969980665000, [0x7531]);
  (587065970902268200, [0x4e265e76]);
  (588805145173455100, [0x5168]);
  (589995391114962600, [0x6162]);
  (591660708534741900, [0x4ee5]);
  (595120374522729800, [0x597d]);
  (599836550975339200, [0x4ec550c5]);
  (603928242145847400, [0x6e106f38]);
  (606038632219141200, [0x96469678]);
  (608194521694982600, [0x6050]);
  (608691047044772900, [0x6216]);
  (609641291754412600, [0x4eff]);
  (610600652810994300, [0x6025]);
  (613014120403701200, [0x8fdc9060]);
  (615914402780710100, [0x65f66642]);
  (615967921647387600, [0x6697]);
  (617641375004753800, [0x57fa]);
  (622207869936269700, [0x535555ae]);
  (624688527856097700, [0x9813987f]);
  (630027126774807300, [0x88ab]);
  (634693799484579600, [0x7d277dca]);
  (635341470142378500, [0x6574]);
  (637442663663616800, [0x6545]);
  (638175267672824100, [0x99ac9a6c]);
  (638845960998495950, [0x7b807c21]);
  (642198994918363900, [0x5411]);
  (644451025349481700, [0x5bf95c0d]);
  (644593475516020300, [0x6070]);
  (645740441494783200, [0x731b]);
  (648222320709187550, [0x7a0d]);
  (649711551508395500, [0x5c0f]);
  (653145692859836500, [0x6084]);
  (655026626055586100, [0x6ee16eff]);
  (659392719667187700, [0x7387]);
  (661903311780295300, [0x5fae]);
  (662583586512570600, [0x72ec7368]);
  (663440489785080700, [0x7684]);
  (665001666332292100, [0x6df1]);
  (665351929387412260, [0x7a337a69]);
  (669562134708612500, [0x9806987a]);
  (670204633476878350, [0x8d77]);
  (678554805661411000, [0x6108]);
  (679459789213402800, [0x5c45]);
  (680781618321988100, [0x51e17528]);
  (681500676376523500, [0x65b9]);
  (684748735605440100, [0x7de97f13]);
  (688436789156273750, [0x7167]);
  (688547347487048700, [0x5e725e79]);
  (691011077925587300, [0x56db]);
  (692726385848212200, [0x5f027570]);
  (694589070668929000, [0x504f]);
  (695771117528971600, [0x683c]);
  (696967304040721600, [0x4f4e]);
  (699526858759617900, [0x8fd1]);
  (700644188819430450, [0x5e78]);
  (702153651441678900, [0x5c065c07]);
  (702661911748025500, [0x5076]);
  (705504480397820700, [0x53866b77]);
  (706691046725470800, [0x4e8b]);
  (707356385174544400, [0x83ab]);
  (711166369797771500, [0x4e588d81]);
  (713127216936609100, [0x636e64da]);
  (715996854304031400, [0x5dee]);
  (717315554732226800, [0x6beb]);
  (719101316472227500, [0x7aed]);
  (723396455191787400, [0x4eba]);
  (723553317969050000, [0x8fdf9072]);
  (723867783636997200, [0x5b815be7]);
  (724025388082543750, [0x6309]);
  (724183241311848750, [0x5c465c4a]);
  (725455118552626200, [0x59048655]);
  (726743381135727600, [0x4efb72e0]);
  (728048456755276700, [0x73b073fe]);
  (728542284919334900, [0x983b9891]);
  (729871208131203200, [0x79c1]);
  (730879620037865800, [0x5077]);
  (731387665161107800, [0x8db3]);
  (742131440340436500, [0x63a5]);
  (742320655155640300, [0x660e]);
  (742510228672130200, [0x51b36c7a]);
  (743847402368719100, [0x52bf52e2]);
  (748371280916603500, [0x60f3]);
  (750815394432518100, [0x7e317eb5]);
  (754811720113701800, [0x98109884]);
  (755673794418092500, [0x7565]);
  (756981002574827800, [0x77408457]);
  (759422855309642400, [0x5f845f91]);
  (762156510726017360, [0x4e45]);
  (763551882203403900, [0x52a152d9]);
  (764021366633824700, [0x9ed8]);
  (765921661346386300, [0x7d22]);
  (769088795730151400, [0x5c615c62]);
  (771088862400818350, [0x4e07842c]);
  (771595192596473000, [0x7a84]);
  (772104099547220100, [0x538953b2]);
  (772615609613897200, [0x5f375f3a]);
  (773646546579783300, [0x5982]);
  (778150619122213700, [0x594b596e]);
  (779240548168017300, [0x8fc4]);
  (780065862343689300, [0x62fc]);
  (780898044677438500, [0x52a852d56d3b]);
  (783723091306023600, [0x64c5]);
  (784010035548819000, [0x7d307ec684e69a40]);
  (784297805531580500, [0x80e1]);
  (786042035797914700, [0x6068]);
  (786630272788221300, [0x4e2d]);
  (787519167529946000, [0x7262800c]);
  (789018445988560100, [0x6210]);
  (791155931947033400, [0x706b]);
  (793025145248248700, [0x773c]);
  (794929964745318200, [0x8fce]);
  (795250992308342900, [0x65ad65b7786c7d147eaf]);
  (795573053778347200, [0x9a5f9aa4]);
  (796871773331028300, [0x7d717edf]);
  (800532747892284400, [0x8cbf8d38]);
  (803631102444281200, [0x653e]);
  (805751323209341500, [0x767b]);
  (806109105344129900, [0x501f523b]);
  (814712539078310100, [0x6089]);
  (815103929010423800, [0x8f2a8f6e]);
  (815891334653514400, [0x53cc96d9]);
  (816684989613088000, [0x4e1a696d82e6]);
  (818291449863468600, [0x516c8fd99019]);
  (819104462471793800, [0x52075c828c48]);
  (819513460996946300, [0x51b7]);
  (819924139192211500, [0x53ca]);
  (820336510910597700, [0x966996aa]);
  (823698171990496200, [0x7d047ea6]);
  (825858083170842300, [0x65b0]);
  (826735281778126000, [0x7a7a]);
  (829414013374491000, [0x8f498f6c]);
  (829867528891030300, [0x9f4a9f50]);
  (830323110544616200, [0x53e6]);
  (831240548172220400, [0x6b62]);
  (832632682024081200, [0x53ef]);
  (833101066955323900, [0x98029876]);
  (834044470178659700, [0x4e8e65bc90029069]);
  (834996858329785300, [0x602a6cbf]);
  (836442666647308300, [0x6bcf]);
  (840909910652467500, [0x51409661]);
  (841418817603214600, [0x7d20]);
  (842961264635777900, [0x98db98de]);
  (844002940721603400, [0x57f76267]);
  (845055582020302200, [0x767d]);
  (848829614818586900, [0x751f]);
  (849380580399683900, [0x6bc5]);
  (849934598437245400, [0x8001]);
  (851051928497057900, [0x538b58d35e7f5ee3]);
  (853324753604813500, [0x52a0]);
  (855063927876000400, [0x5288]);
  (856240412033959000, [0x4e89722d]);
  (856833885585940500, [0x6a2a6a6b]);
  (857430902284591000, [0x6f5b6f5c]);
  (858031504690612000, [0x5149]);
  (858635736136208300, [0x552f65cb]);
  (859243640743846400, [0x6b23]);
  (859855263445590100, [0x5f92]);
  (860470650003028000, [0x4ef0]);
  (863605702991435600, [0x62796b7b]);
  (866186491387022900, [0x56e25718]);
  (866842231441638800, [0x612461a4984d989d]);
  (868835652931720400, [0x4e8f51897ade7af68667]);
  (869509056149855000, [0x5f90]);
  (870187024848392800, [0x500f959395f4]);
  (870869621355432800, [0x970e]);
  (873647577766140200, [0x622a]);
  (874354294488449600, [0x60df]);
  (875066041265336000, [0x767e]);
  (878702805682423400, [0x51ed6191]);
  (879446303531175200, [0x604d]);
  (880195370704091000, [0x4f465e73]);
  (884027257134304600, [0x8f5f8f70]);
  (886398909796036300, [0x98039877]);
  (888828179052940600, [0x970d]);
  (892161821079700000, [0x60bb]);
  (893012890046490800, [0x96f6]);
  (893871264415629900, [0x5c11]);
  (894737070689941300, [0x4e66632866f8]);
  (896491501655032300, [0x4fa7507465398349]);
  (899182246947024800, [0x4fdd]);
  (901947400080075700, [0x884c]);
  (903834248510514000, [0x5fd98054806f]);
  (905757384703302800, [0x80cc]);
  (906733002197839300, [0x84c4]);
  (907718231842140400, [0x6c926ca1]);
  (909718298512807300, [0x51748208]);
  (911759185675928100, [0x4f3a]);
  (914900805299266000, [0x8086]);
  (917051425821362400, [0x6240]);
  (918144332874581400, [0x59d167436b0a]);
  (920366646553052400, [0x51c65f856e96]);
  (921496602078445700, [0x4e565145]);
  (922639471660808000, [0x62e66514820d]);
  (924965157877234700, [0x53e4]);
  (927346222746606600, [0x8aa08bda914c]);
  (929785368059022600, [0x62df64ec]);
  (934849741340898000, [0x501256eb8877]);
  (937481472172635400, [0x624d6562]);
  (938823774205849500, [0x898b89c1]);
  (940184339411427300, [0x8a728be5]);
  (941563671624660800, [0x568e78b0]);
  (944380759321330600, [0x6168]);
  (947279513008655600, [0x5f7b5fb98a93]);
  (948761021587169800, [0x9006]);
  (950264809323623900, [0x534a98c498d8]);
  (953341975190299200, [0x76ca]);
  (954916810887113000, [0x6028]);
  (956516845021757200, [0x56e060ef616392b39510]);
  (958142897108935200, [0x606398179887]);
  (963185982471624400, [0x5fcd9644]);
  (964925156742811300, [0x5929]);
  (968496965003019400, [0x500d]);
  (974105911668123700, [0x607660e16e908fc5]);
  (976047720253833800, [0x5e265e36]);
  (978027982983451800, [0x59d47c97]);
  (980048253715203700, [0x608d624b]);
  (982110182435477300, [0x534365979b25]);
  (986366143877356900, [0x4fe1]);
  (988564034549234400, [0x75be]);
  (990811320134440300, [0x6492]);
  (993110271956910200, [0x5225522b731d]);
  (995463321697929600, [0x4e0e52fb53006cdb8207]);
  (997873076855835500, [0x592a5b5879c9]);
  (1000342338114872800, [0x4e3457287d2f81e8]);
  (1005471667553627800, [0x50b262e964c7]);
  (1008138492261844000, [0x7fa4943594c1]);
  (1010878389680655300, [0x8d85]);
  (1013695477377325100, [0x9694]);
  (1016594231064650200, [0x7f8e8c41]);
  (1022656693246293700, [0x4e3e5dcd8209]);
  (1025831563077751700, [0x5408]);
  (1029110545360050800, [0x4e2556b4]);
  (1036009832508746000, [0x539a]);
  (1039646596925833500, [0x5a495faa600560b575db]);
  (1043420629724118200, [0x4fc49f0e]);
  (1047342701039446300, [0x4e9f59347a81982d]);
  (1051424900491471900, [0x4e9b7247]);
  (1055680861933351400, [0x514d]);
  (1060126038190434800, [0x4f83]);
  (1069657056170867400, [0x6cb9]);
  (1074786385609622400, [0x8ac48c06]);
  (1080193107736649900, [0x5f0062b5958b]);
  (1085908949120644700, [0x5e2d76f4]);
  (1091971411302288300, [0x534f53546276740691639b5a9c7c]);
  (1098425263416045400, [0x6307786e78ba804a]);
  (1112735347780112800, [0x503e50be5fd860b695f7]);
  (1120739618547466400, [0x4f7f51b5672b6cc177ac95ca9614]);
  (1129440756246429300, [0x6bcb]);
  (1138971774226861700, [0x626c63da6b218fe5]);
  (1149507825792644400, [0x5a13907d]);
  (1161286129358282800, [0x58025e6165f7660f66e0]);
  (1174639268620735000, [0x509959075de65e8f6b8a]);
  (1208286492282856300, [0x4ee3506553e35cbf5dcb63a06b65]);
  (1230600847414277300, [0x4f1a670388e191cc98af98d2]);
  (1259369054659455300, [0x62e263d263f4650f723d7ffb]);
  (1299915565470271900, [0x4e0b4ea453395c79625362bd62e864a58db88ddf8e899059906593c894fe]);
  (1369230283526266400, [0x634e63d06643])
].
(** prob_emit.go:3186-3187 probEmit, state 108 *)
Definition emit_108 : list (Z * list Z) := [
  (0, [0x4e0d])
].
(** prob_emit.go:3188-3188 probEmit, state 109 *)
Definition emit_109 : list (Z * list Z) := [].
(** prob_emit.go:3189-3201 probEmit, state 110 *)
Definition emit_110 : list (Z * list Z) := [
  (52654303966140040, [0x54ce]);
  (185512908316064420, [0x554a]);
  (252062473239007940, [0x5929]);
  (255766600407042870, [0x545c55da]);
  (286439627149290400, [0x597d]);
  (413006264482418000, [0x54c8]);
  (491852000518845100, [0x55e85c1a]);
  (542934562895444100, [0x55ec]);
  (652795791762255000, [0x54c7566b])
].
(** prob_emit.go:3202-3202 probEmit, state 111 *)
Definition emit_111 : list (Z * list Z) := [].
(** prob_emit.go:3203-3303 probEmit, state 112 *)
Definition emit_112 : list (Z * list Z) := [
  (148099860119774720, [0x4ee5]);
  (172191096638250190, [0x4e4b]);
  (320704493685857630, [0x5357]);
  (322744744419674050, [0x6700]);
  (326159732739628100, [0x4e1c6771]);
  (334104259164429100, [0x4e2d]);
  (336007915165036540, [0x524d]);
  (343396578692846030, [0x897f]);
  (351363049073448060, [0x5317]);
  (354466431677787860, [0x671f]);
  (354800735214539430, [0x4e0a]);
  (366902020427408140, [0x9644]);
  (373214129073067900, [0x540e5f8c]);
  (381381297717114260, [0x5916]);
  (381786583187164600, [0x51675185]);
  (390434571801698160, [0x6cbf]);
  (409028699557356750, [0x9762]);
  (410858478301317500, [0x88e191cc]);
  (427226731366774300, [0x4e0b]);
  (440594493719111500, [0x54689031]);
  (455756397009659300, [0x540c]);
  (456610956987098150, [0x4e245169]);
  (477536104964350800, [0x65c1]);
  (491842934067101700, [0x56db]);
  (492479722895372100, [0x521d]);
  (495017803898559800, [0x5e95]);
  (524190052097438400, [0x5f537576]);
  (540022092566879600, [0x80cc]);
  (553544771287856300, [0x8eab]);
  (562831743411185400, [0x4e1a696d]);
  (564534338370178000, [0x5de6]);
  (567715725194697800, [0x53f3]);
  (569292216068491500, [0x98029876]);
  (580371169947324200, [0x5176]);
  (594046043464107900, [0x811a8173]);
  (596797248623079600, [0x4e00]);
  (600201832764051300, [0x4fa75074]);
  (601217069910453100, [0x672b]);
  (611171724489693700, [0x5bf95c0d]);
  (614945757287978450, [0x8ddf]);
  (648159140790239900, [0x5c3d76e1]);
  (675308815593316200, [0x65e9]);
  (687316740384989600, [0x8fb9908a]);
  (687662163871798400, [0x6b63]);
  (696709922368410000, [0x809a]);
  (697470382306931900, [0x5bab5bae]);
  (700965883810289550, [0x5e74]);
  (701361923931899240, [0x517395dc]);
  (710932632327617700, [0x53cd]);
  (714037094495813650, [0x57ce]);
  (714942078047805500, [0x4e1b53e2]);
  (715397659701391500, [0x8fd1]);
  (723974341877134000, [0x76ae]);
  (728555295480263400, [0x504f]);
  (778087439203266000, [0x5c71]);
  (782454945553532200, [0x8db3]);
  (785170044460127200, [0x5934982d]);
  (802125974978137500, [0x697c6a13]);
  (805441195709827600, [0x7ba1]);
  (844870376460831600, [0x6797]);
  (863102532140227000, [0x5c3e5f00958b]);
  (893213041418619200, [0x7bb1]);
  (895952938837430700, [0x5148]);
  (901668780221425500, [0x659c]);
  (904654076536393600, [0x573a5834]);
  (907731242403068900, [0x5929884c]);
  (932417250196221500, [0x5927]);
  (997809896936888000, [0x533a5340]);
  (1014515305403204500, [0x6821]);
  (1024046323383637000, [0x7a0d]);
  (1059713817777510200, [0x5883]);
  (1075128885760236100, [0x8d1b8d63]);
  (1093361041439631600, [0x5ead]);
  (1115675396571052500, [0x7aef]);
  (1144443603816230700, [0x8def])
].
(** prob_emit.go:3304-3304 probEmit, state 113 *)
Definition emit_113 : list (Z * list Z) := [].
(** prob_emit.go:3305-3306 probEmit, state 114 *)
Definition emit_114 : list (Z * list Z) := [
  (0, [0x8d85])
].
(** prob_emit.go:3307-5664 probEmit, state 115 *)
Definition emit_115 : list (Z * list Z) := [
  (296630221521196900, [0x4e0d]);
  (304220311046530600, [0x4e00]);
  (378110990817471800, [0x65e07121]);
  (382970246341158350, [0x5927]);
  (437066158372949900, [0x5fc3]);
  (453861320024050000, [0x81ea]);
  (471009873769317500, [0x5343]);
  (479690018500847500, [0x6709]);
  (481468972657197400, [0x5929]);
  (484330026061323900, [0x98a898ce]);
  (491436840876236850, [0x4eba]);
  (493055153205046300, [0x5982]);
  (513774805971172100, [0x51fa]);
  (517014441410547700, [0x524d]);
  (531841808846720300, [0x540d]);
  (534420748335011600, [0x72ec7368]);
  (534857112663789000, [0x4e09]);
  (535588644821426300, [0x5c0f]);
  (540710245986287500, [0x4e3e8209]);
  (544811767243029600, [0x60ca9a5a]);
  (549932621746401000, [0x6df1767e]);
  (554794690447008400, [0x76f8]);
  (555329928120867600, [0x4e07842c]);
  (558602947551729400, [0x6b7b]);
  (559531459329297300, [0x6c146c23]);
  (560468673312183600, [0x751f]);
  (561224820582241300, [0x56db]);
  (566084863467204600, [0x76ee]);
  (568504336325910300, [0x6c34]);
  (569118463128118500, [0x83ab]);
  (569529986342629200, [0x8eab]);
  (570358148425801400, [0x4f17773e]);
  (570983802187231950, [0x7cbe]);
  (572459066034735700, [0x6210]);
  (573098045844612900, [0x9762]);
  (573956420213752000, [0x5e73]);
  (575695594484938900, [0x5168]);
  (575915133541282500, [0x4e945f15]);
  (576135155632242800, [0x540c]);
  (576355662888074100, [0x8feb]);
  (578137447219753500, [0x559c]);
  (580410272327509100, [0x80e1]);
  (582032555878197800, [0x9ad8]);
  (584636253256497350, [0x795e]);
  (585117023413307700, [0x534a]);
  (585358278053846100, [0x8f158f7b]);
  (586085553986754100, [0x5f537576]);
  (586818157995961350, [0x4ee5]);
  (587063556892118000, [0x9577957f]);
  (588798420725579300, [0x91d1]);
  (591330201524008300, [0x51748208]);
  (592880620177604800, [0x4e0e8207]);
  (595787033471995900, [0x4ece5f9e]);
  (597136581619484500, [0x624b]);
  (597955140078128360, [0x7a81]);
  (598504592009892460, [0x6b64]);
  (600733096488835900, [0x540e5f8c]);
  (601015184123000100, [0x7406]);
  (602151559988031600, [0x8a00]);
  (602437683216134800, [0x56e0]);
  (604756627708025800, [0x5f9765e5]);
  (605050313675356800, [0x96be96e3]);
  (605936582401141300, [0x5149]);
  (606531822253870900, [0x898b89c1]);
  (609255137299706700, [0x6240]);
  (610179643114111900, [0x6309]);
  (610489720881936650, [0x4e03]);
  (610800763123375900, [0x5934982d]);
  (612054698048649500, [0x575a580564166447]);
  (612370654077686300, [0x60c5660e]);
  (612687611553814200, [0x610f]);
  (613965584218454100, [0x4e1c6771]);
  (615260100677657800, [0x58f08072]);
  (615586365241139400, [0x54045b89]);
  (618908930003971500, [0x5bb65f027570]);
  (619586898702509400, [0x5fae]);
  (620956783138325500, [0x812b8131]);
  (623047451620256900, [0x6e90]);
  (623400185672053700, [0x67406bba]);
  (625182764067313800, [0x4e3a70ba]);
  (625543124817643650, [0x6025]);
  (626632064797570450, [0x5b64]);
  (627732993348407400, [0x517557506ee16eff]);
  (628102679536540000, [0x65ad65b7]);
  (628473737476193600, [0x4f866765]);
  (631110425060267800, [0x7ffb]);
  (631492834704108100, [0x4e8b5de6]);
  (632648916944215800, [0x5f00958b]);
  (633037266946855500, [0x52bf52e25e9461c9]);
  (633427130988421300, [0x5341]);
  (633818520920534900, [0x53ef5c3d76e1]);
  (634211448734523800, [0x663e986f]);
  (634605926563625500, [0x65b0]);
  (635001966685235200, [0x5206]);
  (635798783650152900, [0x9996]);
  (637006041773579800, [0x8001]);
  (637819054381904850, [0x82e5]);
  (638228052907057300, [0x5728]);
  (640298520243226400, [0x5225522b7834]);
  (640717808069230100, [0x6253]);
  (641986324021961600, [0x53d6968f96a8]);
  (643271138269746500, [0x54ac]);
  (643703104384198200, [0x6012]);
  (644136944544057900, [0x5148671b76f4]);
  (645010312540933400, [0x8caa8d2a]);
  (645891375509148900, [0x5b9e5be682b1]);
  (646334835215935500, [0x9806987a]);
  (649955140082331500, [0x767d]);
  (650881072623611300, [0x6a2a6a6b]);
  (651347273934192400, [0x6e058d70]);
  (652286247969176300, [0x622a]);
  (653234122364630650, [0x4e307f6e8c50]);
  (653711450239896400, [0x91cd]);
  (654191067466245700, [0x63a563a8]);
  (654672996109840600, [0x548c]);
  (655157258557419400, [0x7f6a]);
  (655643877522536660, [0x56fd570b]);
  (656132876051955900, [0x5f628f5f8f70]);
  (657118105696257000, [0x597d]);
  (658113138781573900, [0x7709]);
  (659118172366924000, [0x5fe761826b638f498f6c]);
  (660133409513325800, [0x4e4953cd7fa99b3c]);
  (660644919580002800, [0x4e894fe1529f722d]);
  (661675856545888900, [0x63076c926ca1]);
  (662195338233599350, [0x5fcd932f951999ac9a6c]);
  (662717532631714500, [0x5377]);
  (663242468220328900, [0x8aaa8bf4]);
  (664300679153382600, [0x5c717a777aae]);
  (664834013750918800, [0x529b53e3]);
  (665370208065057400, [0x901a]);
  (665909292928545100, [0x70ed71b180c681bd865a865b]);
  (666996260152235450, [0x4e714e825947706b75db8ac78c08]);
  (667544206728698000, [0x975e]);
  (668095172309795000, [0x62186230771f]);
  (668649190347356500, [0x4f9b]);
  (669206294852302000, [0x5782]);
  (669766520407169000, [0x53d88b8a]);
  (670329902178994600, [0x6177]);
  (670896475932562400, [0x5371611f]);
  (672039345514924600, [0x6f2b]);
  (672615715986599700, [0x5077]);
  (673195427755032200, [0x884c]);
  (673778519786111600, [0x7a7a8033]);
  (674365031731351300, [0x65a965ac]);
  (674955003944070150, [0x675f]);
  (675548477496051600, [0x5c065c07]);
  (676145494194702000, [0x63aa6539]);
  (677350328046319500, [0x516c60ac61f87acb96349670]);
  (678569855355701300, [0x604d98db98de]);
  (679185241913139100, [0x56de591a5c425c645fe0843d]);
  (679804438937931200, [0x523b]);
  (681054455214354350, [0x4f555f205f35]);
  (681685372133680800, [0x82708271]);
  (682320294901546700, [0x5f526b78]);
  (682959274711423800, [0x60f382e69752]);
  (683602363744452800, [0x4e45]);
  (684249615195014550, [0x541e672a80cc]);
  (685556823351749860, [0x661f]);
  (686216891754885100, [0x66f480f8]);
  (686881346026751950, [0x5bcc]);
  (687550244841831600, [0x5c45]);
  (688901616758503900, [0x53e47c8989e689f8]);
  (689584213265543900, [0x5316626c63da]);
  (690271501194320100, [0x547c606f671d]);
  (690963545478777400, [0x77e5]);
  (692362169676251400, [0x8d64]);
  (693068886398560700, [0x5200629562db75377d937ecf8fdc9060]);
  (693780633175447100, [0x6587]);
  (694497482123308350, [0x65366cb86df772fc7e317eb5805e95fb]);
  (695219506920657100, [0x884099b39a70]);
  (695946782853565000, [0x53ea5ff56d4196de9e21]);
  (696679386862772350, [0x864e92ea94fa958095e8]);
  (698160895441286400, [0x9b5a9c7c]);
  (698909962614202100, [0x6b226b6181f3]);
  (699664683177740400, [0x4f9d88c588dd]);
  (700425143116262400, [0x518d62ab]);
  (701963635000210300, [0x899689c6]);
  (702741849044415800, [0x54089707]);
  (703526166790518400, [0x5931773c]);
  (704316684741229700, [0x4e24516953d1767c8fce]);
  (705113501706147400, [0x607660e165f666426d25]);
  (705916718875873800, [0x51675185535a]);
  (707542770963051800, [0x4e5d4f5c542b8a9e8bed]);
  (708365820876703400, [0x707572699748]);
  (709195701158172900, [0x4e2755aa5c615c626c119867987e]);
  (710032526125224500, [0x8fc7904e93269526]);
  (710876412989811100, [0x59cb5f375f3a610166b46bdb]);
  (711727481956601900, [0x6b3d6d77886394a6]);
  (712585856325741050, [0x5fd7]);
  (713451662600052500, [0x503e50be542c6bd4807d8a0e8ba8]);
  (714325030596927900, [0x63d0725b89e3]);
  (715206093565143400, [0x7d617edc]);
  (716094988306868100, [0x4e954f3c607096c4]);
  (716991855305144100, [0x6e296eab96ea]);
  (717896838857135900, [0x4e4c5faa60e8615870cf]);
  (718810087213463200, [0x6d698086]);
  (720661991990186900, [0x53e6573058755c18809d]);
  (721600966025170800, [0x6cb99b42]);
  (722548840420625200, [0x5584]);
  (723505785522240250, [0x7d277dca90599065]);
  (724471976613413900, [0x4e25535756b460b29f4a9f50]);
  (725447594107950400, [0x4efb51656c5775288d7791dd9488]);
  (726432823752251500, [0x4ea451b3539f54845f045fd86c7a]);
  (727427856837568400, [0x65c168297b118fe5]);
  (728432890422918500, [0x4e86516d70df7159]);
  (729448127569320400, [0x4e2d514751f65fd08db38fd18fdb90329d099e269f8d9f99]);
  (730473777586039200, [0x4e5051b2535353865be5632f6a026b7776db885d]);
  (731510056289593900, [0x58025e7879cb90029069943594c1]);
  (732557186276323400, [0x601d672c6e3880fd904a985b98a0]);
  (733615397209377100, [0x4f60517b611b66256bd5723172b9733675627b49990a]);
  (734684926121052000, [0x5fc5731d]);
  (735766017731473450, [0x571f5de765d76b326dcb]);
  (736858924784692500, [0x4e589ed8]);
  (737963908403351000, [0x54ed62cd65e29ebb]);
  (739081238463163500, [0x612461a468397126]);
  (740211193988556900, [0x501f5b5762b1634965b96ed48a718bdd]);
  (741354063570919100, [0x5e745fb7655184998aa08bda98fd9971]);
  (742510145811026800, [0x4ee4554f594b596e5f395f4860f66389683c806a80708d8b8da895ee9ed1]);
  (743679749787345800, [0x591c653e679c86db90c19b31]);
  (744863195552046200, [0x52a852d55bf8707079bb7aed811a81738b708bae905396e2]);
  (746060814656717800, [0x4eca62768010]);
  (747272950709952200, [0x5a01]);
  (748499959969133700, [0x4ec151b0657065786742902296dc]);
  (749742211968989400, [0x4e8c521a522e525b59447199826f88228a138bad]);
  (751000090189675350, [0x505c517c661966c769ae83638dc38e8d]);
  (752273992767418300, [0x535555ae58066251636e64b264da6c426ce373a9958995ed]);
  (753564333251009100, [0x633a835290d1912d]);
  (754871541407744400, [0x4e604f4e52c362ed6c886c897d047e417ea67fd2]);
  (756196064082746500, [0x5b8c82df91cf98029876]);
  (757538366115960600, [0x4ef750f9516b5509657272c272d78cde8d4f]);
  (758898931321538400, [0x5b885d07635f640d646967436b0a6b2376ea83619632]);
  (760278263534772000, [0x4f2450b753f2540366977d0b7eb9]);
  (761676887732245960, [0x51b75b815be7793c79ae9bae9c9c]);
  (763095351231441600, [0x4f115bf95c0d5e9e63926b4c7d1b7eb796e89f90]);
  (764534224976651500, [0x4e135c0860a362d46ec5706d79ef7a4d]);
  (765994104918766800, [0x5f92653b6b8b6b98]);
  (767475613497280900, [0x558359225c48621b68a67d557edd]);
  (768979401233735000, [0x4e3452b352de5c8c602866ff6b657275727d805a81e88896]);
  (770506148446813800, [0x66a271157165754596f7]);
  (772056567100410350, [0x539a676f6b3a8a188bb0]);
  (773631402797224200, [0x5043517653d75c8267287978798d7f8e810d81be8c488ca88d2799ed9a87]);
  (775231436931868300, [0x6d516e3e7c977de97f138b1d8c22]);
  (776857489019046400, [0x4e164f385162593a596a6cea6dda72d0803f8c418fde902392cc94e4]);
  (778510419214167500, [0x51a053f95606624d8d81]);
  (780191131045805500, [0x4e0a4f2050b353c253c35c3173898179820d8fbe9054]);
  (781900574381735600, [0x521d5e2d632563ee92b79500969096b1]);
  (783639748652922500, [0x532a54c46094629b62cb65456d0b7a837aca904d9152]);
  (785409706362862600, [0x535653f854686562695a7fa4827287028ce39031]);
  (787211556913130400, [0x50125c1162e864a5652f709972ac834998039877]);
  (789046470779950050, [0x5bfb5c0b607b60fb61627433753b756b76ae7d307ec688e18ed28f6991cc]);
  (790915684081165350, [0x57f760f46267627f9006982498909cf49e23]);
  (792820503578234800, [0x4e264ed85e7660df63556ca76ec471c375657d717edf800082f18d6b907f]);
  (794762312163945000, [0x4f18512a528852b152f5592a59995b98606860b677ac8edf8f6f959295f295f79f0e]);
  (796742574893562900, [0x54d1555e5f715f85666e67086c5f77f37bc07dbd7ef082828abf8af88bf88c038ffd98e29965]);
  (798762845625314800, [0x4ea14f835bdf5be15d2d5d84629665f766e06a216cbe6d1e77ed803880738ca08d1f8e0c8e8a]);
  (800824774345588400, [0x4eb25bbd5bec5e725e7963a275b27a337a697d057ea289aa]);
  (802930115265371700, [0x59385bb95f7b5fb960f96ce27f3a8a878c6a91ce]);
  (805080735787468000, [0x58315ba15be95efa604b620062a5656c6bc06bc17d208fd0904b]);
  (807278626459345500, [0x4ed75251528d5b665b785feb607c60f1621263a991899eef]);
  (809525912044551400, [0x4e6654095dee66f86bcf6c6a7d627e6a7ed87eda84ec8b398c28]);
  (811824863867021300, [0x54395a465ddd62f36328660f67346a38754f767b7a008083808581ed96d5]);
  (814177913608040700, [0x4f8b514b5192521164cd659768116a396e56759175f479f07a319b25]);
  (816587668765946800, [0x5446553e5ac15f6c62c5637664d46d2a70af724773cd]);
  (819056930024984000, [0x4fef503a50b5533959046291715e768686558d0a8d5e8f3e8f978fdd90559760]);
  (821588710823412800, [0x4e9256e257185ae3614c63116dfb77e27d507ed3885798df]);
  (824186259463739000, [0x51e4520754c056fa63166574679d6e836f70727977eb77ef7a0d7e697ef3840e906e9a559a849aa89cf3]);
  (826853084171955100, [0x530559875a666301665366c966f26cf06d176f5b6f5c706f71c8751a85cf8af18bb38def8eca8f66]);
  (829592981590766600, [0x522453675cf0611a6d3b77bb81e584578a698bd78dbe8fc29db49e64]);
  (832410069287436200, [0x4e0b53eb53f1558b5ef65f3163d2662f673a67f36a5f8ca18cac8d228d2397dc97ec]);
  (835308822974761400, [0x4ea6519b59cd59d75c385c4d62c2677373b273e07792779e7b3c7b4b7c6082db84b88ecd]);
  (838294119289729500, [0x52fe552f620e621162d0637763ed9ce59e1f]);
  (841371285156404800, [0x521752a059545b505f26600061f76293632464e0661366746ef46f20711a75c57d197eb8817e91dc9a30]);
  (844546154987863000, [0x4ef0550765e968076a196d536d746fc373b073fe751875be79fb7bad7d5e7ede80ba928594dc9f5c9f87]);
  (847825137270161900, [0x501a51e159965b095bc4655768406b6a6cdb751c86ca88318d258f098f7d947c95239633967d96cd97ad]);
  (851215292437730000, [0x504752ab52c758fd5bff65a46cbb708972107da07eff978d9ec39ec4]);
  (854724424418857000, [0x4e54514552e453cc545555ac561458ee58ef5a075b0c5ea65f255f4c66fe68f170b976d876e47f627f77900396d99c57; 0x9cde9ede]);
  (858361188835944600, [0x4f5352c9540a55e459d45c40665566886b8a770179cd7a2e901f903c97a09ad4]);
  (862135221634229300, [0x4ee352a95f03606962e564c1667667aa68c469cd6c796d366e9c795679e97e2e7f297fe98b198b588bc68c268fc58fd4; 0x900d9694]);
  (866057292949557400, [0x54d7562956e457665c145dfe5e1d5e4562d6678169756c386d6a6d6e723e74dc8a2d8bbe8cca8d3c]);
  (870139492401583000, [0x51a55c0160a065e7675e6beb6c816cbd6d016f546f78719f71a07f8a820a8cbb8d399178]);
  (874395453843462500, [0x542656f4570d5ac95f87601c619064676bcb788d79197fd87ff98d748d768d95]);
  (878840630100545900, [0x4e8e50ac50e7557c597365bc667a67f46f0674e28d8590009648967398f2996e]);
  (883492631664035200, [0x4e1f4e2250b25154522952dd534e55f759bb5c415fd9602a67af72af7559785578a97db27f5180dc837783ef878d8a08; 0x8a938aa48ad68ba18bba8bef936593ae953295479a4d9a81]);
  (888371648080978500, [0x4ead515a5171548e5664597c598459f95c1a5de85ea75f6a62c86ce572ed72f9788e7a7f8206886889868ced8d4c8f3f; 0x966498c498d89ee8]);
  (893500977519733500, [0x51a45a405bb35e9f5eb75ee2626365636843851a888588ca89128ab08c018cfd8d5b8dcb9020963f]);
  (898907699646761000, [0x4eea505a5100520158a85bb55d0e600560b562d2677f6bc56c866e146f017434788c798f82b8833685d58cb48d358d8a; 0x90109057907a97f3]);
  (904623541030756000, [0x4ea2513f515256fe57165b5c6021623462fe657765996c836de16eda6efe70ae79d87dbf7ef5830588f98ff7916392d2; 0x93a994e9950b958395ea]);
  (910686003212399300, [0x4e9152285351556755a7561659745b5d5de55f7c604360fa629a64ab6b9a6bab6f0f758f768781708c8c8e0f92c393d7; 0x94ff9512964496f296fe97279df89e6c]);
  (917139855326156500, [0x504f544a55b7567459d15b515c3e5e7f5ee3606c626a62e9636b641c64c766026e106f38716774ee75157531770b77a0; 0x78e87cca804a89e58a6d8be18ca78d2b964d99d59a7e]);
  (924039142474851600, [0x4e3251e0538953b25618565359495a135e085e2b5e7e622e63b764f268b36e3a71097e7c7ee77fbd8339840d86fb8715; 0x9041995e998b99df9a77]);
  (931449939690223900, [0x4fbf51c4524a54ab54c156ca57cb57ce585758995ba05bf55e0263e1650068cb6cfe6d826d876dd2707f71e672467262; 0x743c74ca78387a977d087d227ea8873b89818acb8b008bf78c0b9169929894ed96c6980598799d5d9e459f20]);
  (939454210457577500, [0x4e1d6388638e671f680b68df6c6170c2721b776179c07d72800c80a181988aa88bf28fdf9072944494f896f69913997f; 0x9f13]);
  (948155348156540400, [0x4e394fc34fdd4fee507653f659165c165dcd5eb8679567ad689f6bcd6d4e6fc06fdf738b7405746f76d6777979c97e96; 0x7ea4809880ce844984cb8ca98ce48d298d319082918d9999]);
  (957686366136973000, [0x4e4b4fa750745374537b53bb54cd563b56f0592b5bc56148626d64d267176761689d6ee56feb7a888a558bc48cc48d3f; 0x9418949f97ff9b519bc99ca49f3b]);
  (968222417702755500, [0x4ed64f2f4f364f4d51ef51f151fb537f5433543456685c0a5c815e0c60e961f264ca655b6582670b6b726e6e6f02718a; 0x72e175ae762176937ba17cdf7dad7ef47f5483ba846c8ce28d24931995319daf9e7f]);
  (980000721268393900, [0x4e1152ff53205473585e5939593e596559675c4f5cbf5dcb5fff629862fc64bc64c5663c665d66ae6b436bb76cc46cd5; 0x6cf16d2971df75357db87e617e8f7eb67ee37f20821e84258ac48c068c46919c926492b394a9951096fb984d989d9a0e; 0x9a919e1a9e66]);
  (993353860530846200, [0x4f59534f53545410541b5bd35e905eec600f626b62c962ff631f633e6383638c649265af662d678969867663766c76f2; 0x775a79c17a207baa7c1e7f4481118138816681c9836f85e5867e86ee874787668805883b89c089c28a8d8b1b8ba48bb2; 0x8ce08d548eac90aa90af93e1955c99189d3b9e3f9ed4]);
  (1008768928513572000, [0x4e014e704e734ec54fd7509950c5517951ed521b526a5275536f53735471590759a95acc5af55ce85df1606360dc6191; 0x6414642c69826bd26c906cb3735073ed7ae57db17eb28165832b8332867d868d886e889e8cb78cea8d28900190099047; 0x90789080947d94bb96d697699813987f9b449b54]);
  (1027001084192967500, [0x4e984e994ed34f764fa04fe05009508d53175378538b541f56eb58d359195bbe5bc6606d60e0639063e06478682a6d45; 0x6dfa6f7a7384742a745575f076d176e37b147b287b46800482928941897f8a2a8bbf8c378cd38e358e3d8fd990199050; 0x91879759975c98ef9910996d9ac09d729e4a]);
  (1049315439324388400, [0x4ed94f4650bb5141514d5220522a532f53ec5b9d5bf65c3a5c655ca95ce55d225ec9601960d8655966f9673167d468a8; 0x6b626c4770bc714971d574647476780d79e67c737d427de37ec87f1880f681a0820c8427856d87fe886588dc895f8a5e; 0x8bcd8cbd8d3b927494519c259ccf]);
  (1078083646569566600, [0x4e084e1b4ec74f5b514451735212528353ca53e053e254bf558a55df59925b545b635e965ff8602760356168624762bd; 0x643a64c2651c66a766d6674e6b836cfc6db86f5170c8723d72817387758a79d179e37b5a7b977bf37cae7ce77f9e80fc; 0x818f827a85dd87b38b808bfb8c618ff090ca95c395dc961299559a379a9a9b6f9c819ce99d6c9e209e4f]);
  (1118630157380383000, [0x4ec64fca50d5517751a2529d52f8532154b3553156175634566c585a586b59575bd25bdd5be25c1d5deb5e385e55613f; 0x614e624e632163a063ce63cf63ea643d644464cb651d653f654c655d65756591659c65ed6668673d675c680968176881; 0x699c69c16adb6b276b506c726c996d1b6d896d937280732b757876ca76d776dc77657a177a747aa57aba7d147eaf80a9; 0x80c18105821082cd84bc868286958700871c8793879e883688c2893489648a858b028bdb8c138c938df38e148e498e51; 0x8ea18f9e8fad901e903890429063906d9119914d921e93e494a7954295d49616965f9701973d984f9858989c99d09a62; 0x9a749a7b9b919c8d9d899df99e519e70]);
  (1187944875436377500, [0x4e1a4e884f73504e51ff52545256525c527252a35411547d55dc58c158eb591559dc5b585b5f5b7a5b7d5d245e035e7c; 0x5f695fa15ffd604660526065608d60d1623662376279628a6302634f63806382639b641364e264e665bd65cb65cc6649; 0x664b670d6842684868d268ee696d6b206d8e6d956da36df56e0a6e196e986ed16f47701f70d870fd72367259733473ca; 0x74e67720782578ca79a67a0b7bdd7ca57d067ea1803b80a5829982d78346834a83b384948721881f888d898f89c48ac2; 0x8c048c7a8cab8d2f8fa98faf904f91e392579310947f949394b3952596c19704976197cb97e6980c9811987d98829952; 0x99769a5f9aa49e1e9e3e9e9f9efc])
].
(** prob_emit.go:5665-5666 probEmit, state 116 *)
Definition emit_116 : list (Z * list Z) := [
  (0, [0x5fc3])
].
(** prob_emit.go:5667-6420 probEmit, state 117 *)
Definition emit_117 : list (Z * list Z) := [
  (233942433867917000, [0x4e2d]);
  (293722846146138600, [0x623f]);
  (293814945356648400, [0x540c]);
  (329273928277292340, [0x592e]);
  (329480559326674100, [0x4e0a]);
  (339147058285228380, [0x73af74b0]);
  (342260477615801360, [0x901a]);
  (351194987649386330, [0x4e00]);
  (379963194894564400, [0x4ea77522]);
  (382104334625413900, [0x6df1]);
  (382359274215373950, [0x56fd570b]);
  (407760019075358200, [0x5de5]);
  (418520280851976200, [0x5e74]);
  (419486916687055200, [0x5341]);
  (421213108371118850, [0x56db]);
  (426578009179119800, [0x4e09]);
  (436596808724980200, [0x7f8e]);
  (440514489357336900, [0x8b498bc1]);
  (442299736885816700, [0x5bb6]);
  (444830027804255400, [0x77f3]);
  (444949288402767700, [0x65e5]);
  (449840238705995200, [0x7814]);
  (452442734045637100, [0x5317]);
  (452571434192101800, [0x4eba]);
  (456981493979200200, [0x519c8fb2]);
  (463014519040422500, [0x6b276b50]);
  (475645266190536100, [0x5efa]);
  (479954134887234300, [0x4e94]);
  (481576022765784900, [0x4e1c6771]);
  (492284339662712200, [0x4ea4]);
  (492764417397047900, [0x7d9c7efc]);
  (493926095514114750, [0x4e245169]);
  (502565289049334300, [0x5357]);
  (503739888779263900, [0x6caa6eec]);
  (503847357892240400, [0x592a]);
  (507348809676750600, [0x6c5f]);
  (510977325650727100, [0x9ad8]);
  (517662391740322100, [0x84dd85cd]);
  (521564711919895800, [0x653f]);
  (534132387284735600, [0x5927]);
  (535894547419717600, [0x82f1]);
  (537990432521801900, [0x6e58]);
  (539055081361250700, [0x6708]);
  (543430779396960700, [0x9b4f]);
  (543750779670027800, [0x59655967]);
  (543911164628225300, [0x5fb7]);
  (546842970703886400, [0x82cf8607]);
  (554037853693001600, [0x884c]);
  (556920936264772400, [0x57ce]);
  (557287237040646100, [0x5211521b5275]);
  (558394259416070900, [0x8054806f]);
  (559513674090386100, [0x533b91ab]);
  (561982935349423200, [0x52a852d5]);
  (563728857486600200, [0x9752]);
  (563924743935133400, [0x8ca18d22]);
  (564317671749122400, [0x62db]);
  (566506813897307700, [0x4e8c]);
  (568334275921655900, [0x6587]);
  (571456277657777300, [0x9053]);
  (572092547036560200, [0x7701]);
  (574460795500916100, [0x5149]);
  (580755007496595800, [0x7d937ecf]);
  (583340345379229100, [0x519b8ecd]);
  (598201395324393500, [0x4e9a4e9e]);
  (598478020673682500, [0x6b66]);
  (599872743421767600, [0x793e7dad7ef4]);
  (600154037559429000, [0x516d]);
  (600436125193593100, [0x9632]);
  (603011374803834600, [0x5e38]);
  (605061226958668700, [0x7164]);
  (608064455668556200, [0x5e7f5ee3]);
  (609910661952529800, [0x8eca8f158f668f7b]);
  (610846706228486100, [0x516b]);
  (611160678228952900, [0x6c11]);
  (611475639119242500, [0x745e]);
  (613708586759051400, [0x7d007eaa]);
  (614355838209613100, [0x65706578]);
  (615007306311732500, [0x6c496f22]);
  (615334638846229400, [0x60466052]);
  (619348555605263850, [0x53f0]);
  (619690436280142350, [0x62c9]);
  (623175109413159200, [0x4e16]);
  (624964065888236800, [0x4eac]);
  (625325729935255600, [0x751f]);
  (627153934419000500, [0x6da86f32]);
  (630531366130860900, [0x9577957f]);
  (632458208017448600, [0x6e2f]);
  (636426982844172900, [0x6e0590e8]);
  (638059672172915700, [0x5546]);
  (638472043891301900, [0x897f]);
  (639301924172771400, [0x4fc4]);
  (642261971150400500, [0x515a6d779ee8]);
  (643557885614651100, [0x5b89]);
  (645312316579742000, [0x706b]);
  (648003061871734400, [0x9ec39ec4]);
  (648458643525320500, [0x6649664b]);
  (648916310228061600, [0x7acb]);
  (657035325701063000, [0x5929]);
  (658035334034521300, [0x53d1767c]);
  (660065860650595900, [0x4e2a500b]);
  (662663409290922000, [0x638c]);
  (663191115001006400, [0x79d1]);
  (664254954821511900, [0x76d09e7d]);
  (664791149135650450, [0x9655965d]);
  (668627235922895100, [0x4e915730591696f2]);
  (670317417003155400, [0x6751]);
  (671460286585517700, [0x53cd]);
  (672036657057192700, [0x51fa]);
  (673199460856704600, [0x73e0]);
  (673785972801944400, [0x5e02]);
  (676167037671316250, [0x5e725e797279]);
  (677379173724550700, [0x5a5a]);
  (679225380008524300, [0x4e5d]);
  (682380215782016900, [0x7cae7ce780a1]);
  (685637832825478100, [0x4f1a6703]);
  (689005154336136900, [0x7d057ea2]);
  (692489827469153800, [0x6295]);
  (693201574246040100, [0x5df4]);
  (696838338663127650, [0x9769]);
  (698330903684795250, [0x91cd]);
  (700612371461412300, [0x6280]);
  (703737625811822700, [0x603b7e3d]);
  (704534442776740500, [0x75358fd196fb]);
  (706963712033644900, [0x524d629765b08a088ba1]);
  (707786761947296500, [0x8edf8f6f]);
  (710297354060404100, [0x72ec7368]);
  (712872603670645600, [0x671f]);
  (713745971667521050, [0x4ed35009]);
  (714627034635736500, [0x59d4]);
  (715515929377461100, [0x8db3]);
  (717317779927729000, [0x6ec7]);
  (720082933060779950, [0x5370]);
  (721021907095763800, [0x822a]);
  (722926726592833300, [0x4fdd975e]);
  (723892917684007000, [0x90ae90f5]);
  (724868535178543500, [0x8001]);
  (726848797908161400, [0x7d0d7eb38cea8d28]);
  (727853831493511550, [0x51ac6d3b]);
  (728869068639913400, [0x7ba1]);
  (729894718656632300, [0x517482088ca78d2b]);
  (730930997360186900, [0x5c45]);
  (734105867191645000, [0x5f815fae5fb56cdb99d59a7e]);
  (736279865855285550, [0x6539]);
  (737384849473944100, [0x6cd5]);
  (739632135059149900, [0x534e83ef]);
  (741931086881619800, [0x62366237]);
  (743100690857938950, [0x6d2577ff7926]);
  (744284136622639200, [0x660e]);
  (745481755727310800, [0x51715f1579e6]);
  (746693891780545300, [0x540e5f8c655996469678]);
  (747920901039726700, [0x6cb9]);
  (749163153039582400, [0x4e3b9b6f9c81]);
  (750421031260268500, [0x59875a66]);
  (752985274321602200, [0x5ddd]);
  (755617005153339500, [0x53825ee08fbd907c]);
  (759699204605365000, [0x9102]);
  (762516292302034700, [0x51cf53cc5b5868386e1b96d999ac9a6c]);
  (766896554567874000, [0x5de663a5]);
  (768400342304328000, [0x5173662595dc]);
  (769927089517406850, [0x4ee5516751855ba2]);
  (773052343867817300, [0x540d7de87f16]);
  (776278430089639500, [0x4f5c]);
  (777931360284760500, [0x5e085e2b6210]);
  (779612072116398650, [0x4e1a696d]);
  (781321515452328600, [0x671d]);
  (783060689723515600, [0x54c86c34]);
  (784830647433455650, [0x7a7a9644]);
  (786632497983723500, [0x95a995fd]);
  (788467411850543200, [0x90d1912d]);
  (790336625151758400, [0x6c7d]);
  (792241444648827800, [0x5168]);
  (796163515964156000, [0x516c52066d88]);
  (798183786695907900, [0x4f537a057a0e9ad4]);
  (800245715416181500, [0x50e7]);
  (802351056335964700, [0x547c928094f6]);
  (804501676858061100, [0x4f4e753775c58d8a]);
  (808946853115144500, [0x679c]);
  (811245804937614200, [0x679768ee]);
  (813598854678633800, [0x4e7e59735c40]);
  (816008609836539700, [0x66068840]);
  (818477871095577000, [0x836f85e5]);
  (821009651894005900, [0x4e135c085c11852c]);
  (823607200534332000, [0x4e527f72]);
  (826274025242548000, [0x8d858f498f6c91d1]);
  (829013922661359500, [0x4eea510056e257185e7367f3]);
  (831831010358029100, [0x536b53c253c3540876d176e3885b]);
  (834729764045354400, [0x4f01590f804c807788ab]);
  (837715060360322600, [0x6d6679c1958095e8]);
  (843967096058455900, [0x504782398fdb9032]);
  (850636233508323200, [0x54a8652f7d717edf8aee]);
  (854145365489450200, [0x9328951a]);
  (857782129906537700, [0x6b7b8fd0904b]);
  (861556162704822400, [0x65c5]);
  (865478234020150500, [0x81ea8cc48d3f9996]);
  (869560433472176000, [0x4f2a507d534f535457fa5b55]);
  (873816394914055600, [0x529e76967d667ed98cbf8d388fa6]);
  (878261571171139000, [0x4e0372367269]);
  (882913572734628400, [0x66a8947d94bb]);
  (887792589151571400, [0x5b665b785ba36253672c708e]);
  (892921918590326600, [0x51a453bf7e238b669ed4]);
  (898328640717354000, [0x51b7590d5fc36218623065f16cbb93e1955c]);
  (904044482101349000, [0x4f9b507753d658f06536673a6a5f6d0b704c70bc714980728fb9908a]);
  (910106944282992500, [0x646965e996c6]);
  (916560796396749600, [0x4e664ea9544657f75c71626766f86e296eab755d7d507ed3]);
  (923460083545444700, [0x52a9653e798f9806987a]);
  (930870880760816800, [0x4e544f17517b55ac773e821e82b188578fdd9000905597f3990a]);
  (938875151528170600, [0x51486b636bdb6cb37ca47cb58b6f8bd1]);
  (947576289227133600, [0x4e075c3f5e7c670976f47db27f51842c8c6b]);
  (957107307207566000, [0x4e4c518052185289539f663e68426c8870cf767e7dda7ebf8ca88d27986f98f2996e]);
  (967643358773348600, [0x54335434585e5c015c0f5feb6d1e786e78ba7f5a7f70833698109884]);
  (979421662338987000, [0x4e2552e453f856b45f6965e066766fb3712173bb76f277fd78457d447ec480f8827a85dd900693ae9547]);
  (992774801601439300, [0x4e344ef24f204f4f50b351a051fd521d52b352de591c624b674368216b0a758f7bc081e8828284618cac8d23963f]);
  (1008189869584165000, [0x4ecb4fa850d152675287538554035ef35f00610f639266fc6761689d6b8b6b986df7738b73ed78f77cfe7ea08003958b; 0x9f8d9f99]);
  (1026422025263560500, [0x4f0a4fe1533a5340535a540957065713627662c6666e677e6bcd753077ed7fa4878d898f89c4932b9521]);
  (1048736380394981500, [0x4ee350a85132513f51525347537157c3591a5c3c620f623267006d177ad985cf8a138bad]);
  (1077504587640159500, [0x4e3253a854f257665851598a5c555e035e9c5eda6781684869756bd26ce26e566ee16eff70ed71b179bb7bee7c438428; 0x85a98a188a2a8a558bb08bbf8bc48cb88d3796e2]);
  (1118051098450976000, [0x5165517051c651e0520a52a053cb5507571f5883593a596a5c245e7e626b6383667a6b656c646d416d596de16e6f6e96; 0x71c3727a72a7740675327533810a862d886588c588dc88dd8cc78d448f388f938fdc90039060943594c1]);
  (1187365816506970600, [0x4e2751565157518d534853a6542855aa567859045a745b305b645ba15be95e9f5ec85ee25f375f3a5f715f8b60256258; 0x627962e863a163a764a5665a683c68cb69826e176ef26f14732a7518752c798179cd7a2e7b797bb17c4c8089809d8349; 0x865588c1899689c689e38a1f8a8d8abf8ba48bbc8c038c6c8c9d8d1d8fce91c792fc94a29662978b98a898ce])
].
(** prob_emit.go:6421-6425 probEmit, state 118 *)
Definition emit_118 : list (Z * list Z) := [
  (40546510810816444, [0x4e1c6771]);
  (109861228866810980, [0x4ea77522])
].
(** prob_emit.go:6426-6426 probEmit, state 119 *)
Definition emit_119 : list (Z * list Z) := [].
(** prob_emit.go:6427-8301 probEmit, state 120 *)
Definition emit_120 : list (Z * list Z) := [
  (331200311140794800, [0x4e0d]);
  (361305968287887370, [0x6709]);
  (366407211066344640, [0x4e00]);
  (368757829432907960, [0x6c926ca1]);
  (378265326917733600, [0x53d1767c]);
  (380532865932208250, [0x81ea]);
  (391294595855070030, [0x5269]);
  (394861046159158300, [0x8aaa8bf4]);
  (408160876641361450, [0x65e07121]);
  (408782962628871700, [0x4e8b]);
  (415184826178941600, [0x53ef]);
  (425928994365106700, [0x751f]);
  (439759461502824800, [0x4eba]);
  (448881958343180300, [0x8fd1]);
  (453775536099792400, [0x7d447ec4]);
  (455752129171972500, [0x5dee]);
  (456189766631952400, [0x76f8]);
  (470514311266452000, [0x901a]);
  (471824373671021750, [0x4e5f]);
  (471897660592587100, [0x5bf95c0d]);
  (473151826791891400, [0x9577957f]);
  (479908041028493050, [0x5927]);
  (482890930459773800, [0x662f]);
  (486898144394123600, [0x8fd99019]);
  (494874026232968700, [0x793e]);
  (495243712421101300, [0x5404]);
  (500959553805096100, [0x6587]);
  (502441062383610150, [0x6beb]);
  (515496138832248600, [0x6bd4]);
  (517326853576684300, [0x56fa]);
  (520018648632742200, [0x5316]);
  (522177005799459700, [0x4e16]);
  (524011919666279400, [0x60f3]);
  (524506970182265000, [0x795e]);
  (525755425848489500, [0x6b66]);
  (529076292948154900, [0x9ad8]);
  (530120688864263200, [0x597d]);
  (534547971232061950, [0x4e0a]);
  (538037508817123560, [0x7d937ecf]);
  (540773460606705200, [0x6c34]);
  (542096036828631340, [0x5c01]);
  (546945471822492500, [0x7269]);
  (547881516098448800, [0x7d717edf]);
  (549302218762883800, [0x5de5]);
  (550100307595985100, [0x5929]);
  (550260692554182500, [0x8ca88d27]);
  (550904817164468150, [0x4e0b]);
  (553689599902045700, [0x5fc57528]);
  (554022378911313100, [0x6d41]);
  (557240268747736700, [0x4e3a70ba]);
  (562541863517636400, [0x5b63]);
  (564004412439534250, [0x4ece5f9e]);
  (564743787342028100, [0x56fd570b]);
  (565301928325847600, [0x4ea4]);
  (566805716062301600, [0x5230]);
  (567375518173765400, [0x810a]);
  (570667199675079600, [0x591a]);
  (570864244073809500, [0x7b2c]);
  (572454734857775900, [0x52b352de]);
  (572655336730462500, [0x539f]);
  (573664427028658800, [0x4e09]);
  (575506853761264650, [0x4ee4]);
  (579511603874192200, [0x5f375f3a]);
  (580592695484613800, [0x8fde9023]);
  (580810323426873200, [0x5341]);
  (582568610482659900, [0x4f60]);
  (584358367428414200, [0x54c8]);
  (585951120098024350, [0x610f]);
  (587104535422553000, [0x5f00958b]);
  (587803024874748100, [0x519c8fb2]);
  (589689873305186400, [0x8054806f]);
  (591613009497975100, [0x53d7]);
  (591856022983304350, [0x5c11]);
  (592834025888668300, [0x8840]);
  (593573856636812800, [0x4ea77522]);
  (594568889722129600, [0x5982]);
  (594819202743941500, [0x65f66642]);
  (595070143904484000, [0x4e2d]);
  (596589160453881550, [0x5e38]);
  (598391011004149400, [0x6253]);
  (599173283572270200, [0x51fa]);
  (601022741835886700, [0x96be96e3]);
  (602095138172184300, [0x81f38fc7904e]);
  (602907050616034700, [0x4ee55546]);
  (603725609074678600, [0x753596fb]);
  (603999957669253700, [0x5c3d76e1]);
  (605104941287912200, [0x66f4]);
  (606503565485386200, [0x4ed6]);
  (607636722086341200, [0x6c11]);
  (608208152212685100, [0x7531]);
  (609071466927155400, [0x57fa]);
  (609360902729791800, [0x8a088ba1]);
  (609942299716333800, [0x7cae7ce7]);
  (611115333694882800, [0x63a5]);
  (611707051397691600, [0x5fae]);
  (615332826199954000, [0x5bb6]);
  (617825167045199700, [0x6d88]);
  (618776045842102500, [0x5171]);
  (619095025378912500, [0x4fd7]);
  (620058114685008600, [0x660e]);
  (620705366135570400, [0x4e135c08]);
  (621030569674208100, [0x5e749636968e]);
  (625017808798945800, [0x5403]);
  (627767122856965700, [0x5206]);
  (628466426406062700, [0x70ed71b1]);
  (630594166250791200, [0x60c5]);
  (631675257861212800, [0x8d70]);
  (633503462344957700, [0x521d]);
  (633873148533090300, [0x96cc]);
  (634244206472743900, [0x571f]);
  (636880894056818100, [0x4e497fa9]);
  (637263303700658400, [0x9762]);
  (637647181331375000, [0x6ee16eff]);
  (638032538262974000, [0x5fc3]);
  (638419385940766000, [0x4f9b968f96a8]);
  (639981917731074100, [0x4e8c]);
  (640772435681785400, [0x80a1]);
  (645235651083862300, [0x657065786e05]);
  (648183232897157700, [0x5408]);
  (649041607266296800, [0x519b8ecd]);
  (651220342684787600, [0x5f62]);
  (651661844505699200, [0x6297]);
  (652105304212485800, [0x53d88b8a]);
  (652550739247423800, [0x4e1d7d72]);
  (652998167286915900, [0x611f7532]);
  (653447606245699800, [0x524d]);
  (654808171451277700, [0x5357]);
  (656187503664511300, [0x7d9c7efc]);
  (657117742930742650, [0x8fc4]);
  (658529531085321100, [0x653e]);
  (659004591361180900, [0x8fd0904b]);
  (659481919236446700, [0x5974]);
  (659961536462796000, [0x5f88]);
  (660927727553969650, [0x52a852d5]);
  (661414346519086900, [0x4e07842c]);
  (661903345048506200, [0x4f7f51685b878edf8f6f]);
  (662394746528749100, [0x678469cb786c805e95fb]);
  (662888574692807350, [0x4ef750f96210]);
  (663384853627020200, [0x5b9a]);
  (667446325542439200, [0x5b9e5be65e7398a898ce]);
  (671679761925095300, [0x5c45]);
  (672766729148785700, [0x6d3b9632]);
  (673865641306345200, [0x5c0f6d77975e]);
  (674419659343906700, [0x544a]);
  (674976763848852300, [0x60a8]);
  (676100371175544900, [0x4e0e653f80018207]);
  (676666944929112600, [0x5f15849991cd]);
  (677236747040576400, [0x552e91cf]);
  (678386184983149800, [0x4f9d607660e18349]);
  (679548988782661800, [0x53177b807c217d507ed3898b89c1]);
  (680135500727901650, [0x4ec550c5]);
  (681318946492601900, [0x5149]);
  (683120797042869700, [0x64cd]);
  (683728701650508000, [0x541b]);
  (684955710909689400, [0x771f]);
  (686197962909545100, [0x6df1767e98df]);
  (686824924210904600, [0x520783ab]);
  (687455841130231100, [0x540d6108]);
  (688090763898097000, [0x626d]);
  (689372832741003100, [0x4ef0]);
  (690020084191564900, [0x56db]);
  (690671552293684200, [0x6d6e]);
  (691327292348300100, [0x65b0]);
  (691987360751435300, [0x5730]);
  (692651815023302200, [0x4e2451695e7f5ee37a337a69]);
  (693320713838381850, [0x592a77e5]);
  (693994117056516300, [0x5019]);
  (694672085755054200, [0x540c]);
  (695354682262094100, [0x7a7a9020]);
  (696734014475327700, [0x570657137cfb]);
  (698132638672801700, [0x534a]);
  (698839355395110900, [0x4eb2516c89aa]);
  (700267951119858600, [0x50f191d196c7]);
  (700989975917207350, [0x9664]);
  (702449855859322600, [0x552f67007b97]);
  (703187866589084800, [0x6309]);
  (703931364437836700, [0x6478]);
  (704680431610752400, [0x5e0280be814e]);
  (705435152174290700, [0x4e265e76]);
  (706195612112812650, [0x773c]);
  (706961899387369550, [0x62807fa4]);
  (707734103996760600, [0x603b7e3d]);
  (708512318040966100, [0x4e94]);
  (710087153737780000, [0x72ec7368]);
  (710883970702697700, [0x5c718f498f6c]);
  (711687187872424100, [0x9ec39ec4]);
  (712496908895686100, [0x88f896c6]);
  (713313239959602100, [0x548c690d]);
  (714136289873253600, [0x7d057ea2]);
  (714966170154723200, [0x6761689d7537]);
  (715802995121774900, [0x6cea6dda]);
  (716646881986361350, [0x76f4]);
  (718356325322291300, [0x53cd9ed1]);
  (719222131596602750, [0x5faa62db8fdd9055]);
  (720095499593478200, [0x7a00]);
  (721865457303418400, [0x6574]);
  (722762324301694400, [0x6240673a68386a5f9ed8]);
  (723667307853686200, [0x4e14]);
  (724580556210013400, [0x98189886]);
  (725502221720505800, [0x4e45542f555f6bcb]);
  (726432460986737200, [0x805a]);
  (727371435021721100, [0x4e3e7d277dca8209]);
  (728319309417175500, [0x65519759975c]);
  (729276254518790500, [0x51a06b3290599065]);
  (730242445609964200, [0x5df46ce2898f89c49000]);
  (731218063104500700, [0x503c593490a3982d]);
  (732203292748801800, [0x4e3b5bc66cb9]);
  (734203359419468800, [0x4e2a500b]);
  (735218596565870600, [0x51e0578458df5e7e]);
  (736244246582589500, [0x62bd]);
  (737280525286144200, [0x4fdd5b646084878d884c]);
  (738327655272873700, [0x770b7ffb89c089c2]);
  (740455395117602200, [0x5012]);
  (741536486728023700, [0x4f18512a6025]);
  (742629393781242800, [0x4e8962c9722d]);
  (743734377399901300, [0x62fc]);
  (744851707459713800, [0x4ed853c8660f6b637d557edd]);
  (747124532567469400, [0x9694]);
  (748280614807577000, [0x51745225522b5347706b8208843d]);
  (749450218783896200, [0x5175518d5343591c64e68a188bb0]);
  (750633664548596400, [0x5b986fc0]);
  (751831283653268000, [0x501f]);
  (753043419706502500, [0x8010]);
  (754270428965683950, [0x8eab]);
  (755512680965539650, [0x554f8dd195ee]);
  (756770559186225600, [0x4f3c5b665b78]);
  (758044461763968600, [0x78347dda7ebf8af88bf8]);
  (759334802247559450, [0x54ed620a67406b646bba]);
  (760642010404294700, [0x8cf48d568ff7]);
  (761966533079296800, [0x5f9762ff800d]);
  (763308835112510800, [0x516b]);
  (764669400318088700, [0x51a56b7b]);
  (766048732531322200, [0x590d630775b2]);
  (767447356728796200, [0x5386545c55da6b77]);
  (768865820227991900, [0x547c]);
  (770304693973201900, [0x4f2050b3811181668aa08bda8fdc90609752]);
  (771764573915317100, [0x4e9252e4601d]);
  (773246082493831200, [0x5f5264956a216b78]);
  (774749870230285250, [0x96349670]);
  (776276617443364100, [0x5c615c627d307ec6]);
  (777827036096960600, [0x73bb785d7d617edc]);
  (779401871793774500, [0x7b1182b184c4]);
  (781001905928418600, [0x6c38900f9022]);
  (782627958015596600, [0x4e034e1c54ac5ffd67718c618f388f93969096b1]);
  (784280888210717700, [0x53e37530]);
  (785961600042355900, [0x715e79cd7a2e7bc082828b6c]);
  (787671043378285900, [0x52a065e5958995ed]);
  (789410217649472750, [0x4e5958f05b89602a6d516e3e73af74b0767b79ef7a4d80728fa98faf8fce]);
  (791180175359412900, [0x4ee3513f5152529f52dd53565bdd5be266257da07eff80dc8ce3]);
  (792982025909680700, [0x5211625164b279cb8568]);
  (794816939776500300, [0x57505bf85de1624b99529976]);
  (796686153077715600, [0x7a57]);
  (798590972574785100, [0x51ac540e5f695f8c6bcf6d536fc37cbe8dcc]);
  (800532781160495200, [0x657290029069]);
  (802513043890113100, [0x543858315e725e7962a564926df776db77a07ba17e967ea49867987e]);
  (804533314621865000, [0x538b575158d35b7060ca64166447740689e3964696789a5a]);
  (806595243342138700, [0x517b5f0262d267286a2a6a6b757078b07ad9990a]);
  (808700584261921800, [0x535a67426b226b6182d4897f96dc]);
  (810851204784018300, [0x4e584e914eab53e4632563ee69546c146c2380fd8cbb8d39959395f496de96f29e219f4a9f50]);
  (813049095455895800, [0x56f05e9461c96cbb7acb826f85e499ac9a6c]);
  (815296381041101600, [0x4f4e59875a666eda6efe82f1851a898196c4]);
  (817595332863571600, [0x71df842588638ac78c088ca78d2b93c894fe959295f298179887]);
  (819948382604591000, [0x53e6813881c988c588dd903b908f]);
  (822358137762497000, [0x5ec976ae8d85]);
  (824827399021534200, [0x5b505f395f4860b668d86d2a767d7a0d95f7]);
  (827359179819963200, [0x4e614e8651f959165bcc65f16ea2725f7b497f8e910998f2996e]);
  (829956728460289200, [0x536763926cb378b17b5481a881e58ce08d548fd8908491d894899806987a9e7c]);
  (832623553168505400, [0x504750bb5973600060b2611b61f7654c65756b276b506d6a723172b97336738b91dd9488]);
  (835363450587316900, [0x4e714e8253ea57f7594b596e5bfb5c0b62346267626b6383699c795688ab8a00]);
  (838180538283986500, [0x52bf52e2535555ae60f9]);
  (841079291971311700, [0x4f54536054685e78614e72af77667de87f169031]);
  (844064588286279800, [0x53775937624d66b4683d70b970df7159727980e18b588bc68cc78d44943594c196e89ede]);
  (847141754152955000, [0x4e1f4e224f2450b754fa59045b885e95662066746e3875db815485fb86558a718bdd904a]);
  (850316623984413200, [0x5e0c6c426ce16ed1839e95f997609aa89b27]);
  (853595606266712200, [0x4eae540a57285e0361f57626827082718eb2]);
  (856985761434280300, [0x4f174f534fee515a532f559d57ce5f255f4c5f536349634f663c665d6c477576773e80a99ad49ee8]);
  (860494893415407300, [0x4e2554ea56b4600e65366b6574ee7515758f7f758f158f7b90759a82]);
  (864131657832494900, [0x4e304f8650cf53055de6676568076a196d1770e771d272d78c508fed98e299659f13]);
  (867905690630779600, [0x4e4f4e8e4eea51005173559c5e7c62ac651865b965bc6b8b6b98817e8c9e8d1e8d8a95dc9a30]);
  (871827761946107700, [0x4e504e9f529b56de59155fe062e5644664c164fa6a026dfb72367ade7af683528a0e8ba88ffd]);
  (875909961398133200, [0x5176547d56fe57165939593e59575be16311661f67d46e296eab76ca80c681bd83e98ca18d229375952e9808987b98db; 0x98de]);
  (880165922840012800, [0x4f555165522952a953f755315bab5bae5c16606a6241626964f46613725b7d2b7f577f8580c3865f967797f39eef]);
  (884611099097096200, [0x541e60266ee56feb755976ee]);
  (889263100660585500, [0x4fa65075543654505567561656a356c25f716545675182129b5a9c7c]);
  (894142117077528700, [0x50a8513251455b5c61626218623064d2656c6602768479d17af97b288d77966996aa97cc97e798fd9971]);
  (899271446516283700, [0x5a5a62fe66ae672a6f0f786e78ba79f07a317aed7c977f6e88e18b498bc18c378ca08d0a8d1f8d5e91cc929894ed96c5]);
  (904678168643311400, [0x52c353c253c3540956e256f4570d571859bb5a495fc661b662b163ed832b99999b42]);
  (910394010027306200, [0x53515efa5f03627962a26436671b67a268c46a1e717d7372759180898170830183b78747880592b9950897389811987d; 0x9f3b]);
  (916456472208949600, [0x5288534e5b545bbd5bd25bec5c31635e6367648866f26f2b72c274037e417f3a80f083ef99969b3c]);
  (922910324322706700, [0x4efb51b76276632f642d672c6f6e719f75657a777aae7d007eaa82e684ec89e689f8901e96f79cf49e23]);
  (929809611471401900, [0x4e7053cc550756e0575b58c758eb5a135ae6679768116a396c6a6cd5742275c5803386ee883b8aa48bef8cb7906e92b3; 0x951096d9]);
  (937220408686774100, [0x4e5d4f4d4fe153d954ab591f59205fd960fa621162ab65586b6271ce7cd6806a80708a988bf18f9e8fad9001915292b7; 0x950098c498d8]);
  (945224679454127800, [0x540658ee58ef59d45b095b8c6155643a651c656265a565e9663e6c886c896d127051707d707e772878a7798f80f681a0; 0x8d6b8d818eac9009905390789824986f98909bae9c9c]);
  (953925817153090700, [0x4e1a4f264f59502b514851a452fb5300542c557855f2562f56ca58c1629562e764f0655967f3696d707f71e6738979c1; 0x807d818082738277827a85dd864e8a348ac48ad68bba8bc98c068cca8d3c8eca8f6690109012905e92fc934b94a29505; 0x96cd9918]);
  (963456835133523300, [0x4e4d51c653e5542b5486585e5f7b5f7c5fb9629162c662cd62f163506c576d696e96785578a97965812b813182cd84bc; 0x88968a698bd78def8fbe90549633967d98029876]);
  (973992886699305800, [0x4ed951b252195247533a534053d655b75674574e59d15f875f92628463a863d065c1672b67af67e56b3a6bdb6de1722c; 0x7275727d73a9753b756b76d776dc79bb7a837aca7b147b46852b858487b3885d8b1b8bb290aa95d695ef96e29a559a84]);
  (985771190264944200, [0x4e34505c507751f853f25b8f5bd35c425c64632464e0653b65e765ed6ca66ce56dea73347480752977ac79d87a7f7a9d; 0x7aa97c7b7d2f7db27dbf7ef57f5181e8820a821f83368ce28d24928094f6985e]);
  (999124329527396400, [0x506551675177518551b3523653bb53ee5439574f589e58de59225e2e5e6b5f905feb6012606d608960a062e963a263a7; 0x63a964c7666e67f468a66b206c7a6ed4719477017de97f137fe980f3810881098caa8cb48cea8cfc8d288d2a8d2d8d35; 0x8e22903c9f529f7f]);
  (1014539397510122300, [0x4e27504f50b2524a52ab54d1555e558455aa5634593159765b8b5ba25c0a5c385c4d5e615fe4611a626c63d263da6458; 0x652f65d6674369826b0a6b216b8a6cc46d296e146ecb6f01704c765e7669788d79197c927d197d1b7eb77eb87f6a85cf; 0x871a88688ab08c018c8c8d648e0c8e8a8f5f8f7090ce96fe972798af98d29f0e]);
  (1032771553189517800, [0x4f1a4f834fbf4fef517c51dd5212528352c7537359445a015c1a5c815f85602760e96101612461a461f262966302639b; 0x667666a267036b726e3a6ef4732b73ed754577ff792679e67a1a7f9e80f882398a558bc48c938cc88d3e915a91ce92e5; 0x9503965096d5981098849a579a8c]);
  (1055085908320938700, [0x4ea150ac515451cf52ff596259885abd5bc25c045ea65fd761a8627f63016328636164bf655765ad65b765cb675f6865; 0x6a4b6e1b709270c27167721b7261732a738776ea78e8793a7978798d7ae57d087ea8804c8077810f81df82db8361841d; 0x848b8523863f867d88d98c6c8d258dc38e8d8f9b8fe5906396d6971e9913997f9d159e359f8d9f999f9c9f9f]);
  (1083854115566116900, [0x4faf52005353538953b254c755435617575a58055c1d5fd860556168620e6258627c6293629b62cb62d66345638963ba; 0x641e642c647b6490649164bc674f680b68a868df697c6a136c496cbe6d0b6f206f22708a70c8711a720672ee731c7345; 0x751875f477f37981803f80a580cc820c82e58a898a9e8b198b668b708b7d8bae8bed8c268c7a8cac8d238e0f8f3e8f97; 0x9006901d907f91e3931a949394ee967696c196f6]);
  (1124400626376933200, [0x4e114e324ec14f0f4f46503a505a50b5514d517d51e1522e536b54105668582a594959565a115ae35b585b815ba05bbe; 0x5be75bf55c975d175e085e2b5e865ed65fad60f061676176618b625b6316638c65e26655668867086756675c679567aa; 0x69ae69cd6bd272f07319734e737873b073fe778e78377d227d627e317eb57eda7fd87ff98363836f85e5867987008815; 0x885b8892899689c68b2c8c2c8cd38cfd8d5b8de891779192919c92e49504966a96ea9d5d9e459f20]);
  (1193715344432927800, [0x4e394e664e954fc3503e50be5112514451cc51ff53f653fd543e5630586b590f592b593859995a075a465b0c5b9d5bdf; 0x5bf65c4f5de85dfe5e845f5d5fb7627e628a62a0632b63aa645264736500653966f8676867736851694a6a616b3e6bc0; 0x6bc16c5f6c816cdb6cf06d016d476da66e2f6e566f546f5b6f5c6f646f86708e71d572597322732e737b776579c07b3c; 0x7bad7c607e5e7e7d7ed57f247fbd800c810d81be81ed821e838a84498513865a865b868d8a878abf8b208c038c238cab; 0x8d2f8d9f8e728fdb90329057907a914c947f958095d495e896169839984f985b9893989c98a098ef996d99b399d59a62; 0x9a709a749a7e9b459b549db49df99e649e70])
].
(** prob_emit.go:8302-8303 probEmit, state 121 *)
Definition emit_121 : list (Z * list Z) := [
  (0, [0x4eba])
].
(** prob_emit.go:8304-8469 probEmit, state 122 *)
Definition emit_122 : list (Z * list Z) := [
  (92069372263023770, [0x4e00]);
  (271070849359975500, [0x7b2c]);
  (271877056259344750, [0x4e245169]);
  (315957721094816500, [0x4e07842c]);
  (319315073383957460, [0x51e05e7e]);
  (326486908253235080, [0x4e09]);
  (327532968879975070, [0x4ebf5104]);
  (332070883011604600, [0x591a]);
  (359635664625573600, [0x5341]);
  (389727051616882000, [0x5927]);
  (394978576395578030, [0x4e8c]);
  (412707669728584100, [0x8a318bb8]);
  (415143122163196100, [0x56db]);
  (427820813936787000, [0x4e94]);
  (440222225659940200, [0x5343]);
  (443317855856392700, [0x5de6]);
  (451216938949692000, [0x534a]);
  (460242688683252100, [0x4e0d]);
  (465868735297601160, [0x9996]);
  (470871763511556600, [0x5168]);
  (476605398611679100, [0x5f88]);
  (484978918290467700, [0x65706578]);
  (497887158353309000, [0x516d]);
  (507243051607825550, [0x767e]);
  (513796255709259600, [0x4e037f8e]);
  (515635802622274800, [0x516b]);
  (534907194821082900, [0x4f599918]);
  (538616735576807850, [0x5c11]);
  (548908772990706150, [0x6beb]);
  (552949726824493800, [0x4e5d]);
  (570313341710374500, [0x4f17773e]);
  (590219813519317700, [0x516c]);
  (602363326524997700, [0x53cc96d9]);
  (608023112667633800, [0x597d]);
  (610061163755882000, [0x82e5]);
  (625953111819930450, [0x7d557edd]);
  (637204828427592200, [0x5206]);
  (638378043489945850, [0x5398]);
  (644196239028219400, [0x65e07121]);
  (645055748451812900, [0x7247]);
  (682851594683645900, [0x8af88bf8]);
  (703080293487611200, [0x5e73]);
  (709194667124311900, [0x6574]);
  (711361737269474850, [0x6e2f]);
  (713972851669843400, [0x4e1d7d72]);
  (737752922581261750, [0x54689031]);
  (761079090729241200, [0x82f1]);
  (766521129826439800, [0x7cfb]);
  (772513705919558550, [0x7d427ec8]);
  (789003411109832800, [0x96f6]);
  (816934793387959200, [0x6709]);
  (832535218235617300, [0x4e0a]);
  (832969058395477200, [0x7532826f]);
  (837869816306146700, [0x4fbf]);
  (844475991373956000, [0x6d77]);
  (854741406779964300, [0x67816975]);
  (863787117795489400, [0x4e9b]);
  (864380591347470800, [0x4fe95006]);
  (873081729046433900, [0x5fae]);
  (873733197148553100, [0x51fa]);
  (878416327116963000, [0x65e5]);
  (892358280641937500, [0x5e74]);
  (895558553750555000, [0x8f9b]);
  (896374884814471000, [0x7acb]);
  (904927102158287300, [0x6444651d]);
  (906728952708555100, [0x5c0f]);
  (915264937603670800, [0x898b89c1]);
  (934892928508137000, [0x4eba]);
  (941106106618837600, [0x7d0d7eb3]);
  (942396447102428400, [0x59da]);
  (949110377386191200, [0x5eff]);
  (959338262298233000, [0x5e9a]);
  (962463516648643500, [0x58ec]);
  (965689602870465600, [0x5149]);
  (981652617429654000, [0x4e01]);
  (991762229116790900, [0x620a]);
  (996110740310764700, [0x4f0d]);
  (1005419782617366000, [0x8cb38d30]);
  (1007889043876403000, [0x4e2a500b6cd5]);
  (1010420824674832100, [0x4e16]);
  (1015685198023374300, [0x4e195c425c64]);
  (1021242183138855400, [0x5df1]);
  (1024140936826180600, [0x4e5952a0]);
  (1027126233141148700, [0x7678]);
  (1030203399007824100, [0x6fb3]);
  (1033378268839282100, [0x6210]);
  (1047193302687363700, [0x58f9]);
  (1054889406800976700, [0x70b99ede]);
  (1067672743951965200, [0x99ac9a6c]);
  (1082333091371152600, [0x514b]);
  (1093455654882175100, [0x76ce]);
  (1099518117063818700, [0x67b6]);
  (1105971969177575800, [0x5bf95c0d]);
  (1112871256326271000, [0x4ee8]);
  (1120282053541643000, [0x540c]);
  (1136987462007959600, [0x5345]);
  (1157054531554174800, [0x6bd4]);
  (1168832835119813200, [0x5e0288e191cc]);
  (1182185974382265500, [0x53c1]);
  (1197601042364991200, [0x627967d27396]);
  (1215833198044386700, [0x51e1]);
  (1238147553175807800, [0x4edf]);
  (1266915760420985700, [0x52178f298f88]);
  (1307462271231802100, [0x4f70534e53f0634c83ef8f1b8f86]);
  (1376776989287796700, [0x5170573a575a57c358055834592962d66302639b6761689d7d447ec4809a862d97d397e9])
].
(** prob_emit.go:8470-8470 probEmit, state 123 *)
Definition emit_123 : list (Z * list Z) := [].
(** prob_emit.go:8471-8506 probEmit, state 124 *)
Definition emit_124 : list (Z * list Z) := [
  (107186196595636640, [0x8fd99019]);
  (109717378446416650, [0x4e09]);
  (197446497688101720, [0x56db]);
  (240383096039492640, [0x4e00]);
  (296455355530554000, [0x90a3]);
  (491746489981983700, [0x5341]);
  (508352593574201100, [0x6b64]);
  (515713775308525700, [0x4e94]);
  (530666948705622100, [0x96f6]);
  (539956323394891800, [0x54ea]);
  (582288595945708800, [0x4e07842c]);
  (615665913910913600, [0x534a]);
  (619512541993693200, [0x4e8c]);
  (654343211420514800, [0x5343]);
  (657160299117184450, [0x591a]);
  (718251207349481700, [0x516b51e05e7e]);
  (735436233042147700, [0x767e]);
  (782436595966721300, [0x6b63]);
  (792972647532503850, [0x4e0a96469678]);
  (833519158343320200, [0x62fe814a81d8]);
  (851751314022715700, [0x516d]);
  (874065669154136800, [0x5c11]);
  (943380387210131300, [0x53cc96d9]);
  (1012695105266125900, [0x597d62107b2c])
].
(** prob_emit.go:8507-13771 probEmit, state 125 *)
Definition emit_125 : list (Z * list Z) := [
  (426894922630253200, [0x516c]);
  (434365590272252400, [0x5927]);
  (435209596842769300, [0x4eba]);
  (438850582093894200, [0x5730]);
  (441806272376688800, [0x5e02]);
  (450869503722659800, [0x8cc78d44]);
  (453352659132980750, [0x7d937ecf]);
  (457481988862963500, [0x57fa]);
  (462691846781722600, [0x56fd570b]);
  (463766387518713900, [0x65f66642]);
  (477799119003762500, [0x80a1]);
  (480415813450118800, [0x653f]);
  (486212486719963900, [0x65b9]);
  (488327382104258200, [0x5de5]);
  (493447602996457800, [0x673a6a5f]);
  (501454302628438700, [0x884c]);
  (501535247915821450, [0x5168]);
  (507462878754970000, [0x4e3b]);
  (508091461262977800, [0x753596fb]);
  (509915323522490000, [0x6c34]);
  (515062627603482250, [0x90e8]);
  (516325514858320200, [0x4e2d]);
  (520482163816977200, [0x4ef750f9]);
  (521978067231618100, [0x5c0f]);
  (522167245333683100, [0x4ea77522]);
  (525023738179617100, [0x6587]);
  (525949775288460200, [0x4e16]);
  (532651520314269200, [0x91d1]);
  (535695328755828500, [0x898f89c4]);
  (536953910604773550, [0x603b7e3d]);
  (539329210954760600, [0x60c5]);
  (540020434622853100, [0x539f]);
  (541050183661776200, [0x4ea4]);
  (543784868403355400, [0x8001]);
  (544165292158551000, [0x4e0d]);
  (545695483261587600, [0x4f5c]);
  (547721646682457400, [0x4e8b]);
  (549266286265983100, [0x5546]);
  (549703351293140900, [0x62186230]);
  (551071493800891900, [0x793e]);
  (551744699914297600, [0x5b665b78]);
  (552583581525441000, [0x928094f6]);
  (554940940562670600, [0x519b8ecd]);
  (555861576613297300, [0x4f01]);
  (556448148564195600, [0x554f95ee]);
  (557320706487718900, [0x7d507ed3]);
  (558051382407556100, [0x65706578]);
  (559155748143451700, [0x6d77]);
  (559595990459083000, [0x751f]);
  (559868147559119800, [0x519c8fb2]);
  (559949585113412700, [0x98a898ce]);
  (560464528453468300, [0x4fe1]);
  (565514059743576700, [0x6210]);
  (569194801700919850, [0x6307]);
  (569471039596644100, [0x9ad8]);
  (572212127483271500, [0x4e1a696d]);
  (572842790964648900, [0x5e74]);
  (573206119449593600, [0x8b498bc1]);
  (574148832648157550, [0x5f62]);
  (575125250662071000, [0x5929]);
  (575741426132682900, [0x65b0]);
  (576620543516686300, [0x6536]);
  (577334502284175950, [0x517395dc]);
  (579421371595038500, [0x5229]);
  (583273231723253700, [0x80fd]);
  (585874076070921300, [0x624b]);
  (587200312556667300, [0x5916]);
  (587788165327261800, [0x98189886]);
  (587863061178724160, [0x5c71]);
  (588224284098649700, [0x57ce]);
  (588549089618746200, [0x6c11]);
  (588964870987866600, [0x52a852d5]);
  (589050130561049600, [0x6c146c23]);
  (590055020550661900, [0x51675185]);
  (590352226080779100, [0x571f]);
  (591118476426357200, [0x610f]);
  (591895518848090500, [0x6280]);
  (592007716718344800, [0x6295]);
  (594553515459763650, [0x7269]);
  (595990720299191700, [0x7687]);
  (596561218994030100, [0x8ca18d22]);
  (597490121518874100, [0x8a188bb0]);
  (597613941376823200, [0x5973]);
  (597887921232356700, [0x7406]);
  (598282112614159900, [0x6cd5]);
  (598620487178929300, [0x9762]);
  (598996643518180800, [0x5b9e5be6]);
  (599679419279897800, [0x4e00]);
  (601133951771408900, [0x53866b77]);
  (601423124083871500, [0x8ca88d27]);
  (602160538949526550, [0x521b5275]);
  (603323405936019200, [0x79d1]);
  (603575143605217100, [0x5206]);
  (604444666446507500, [0x7279]);
  (606144866268733100, [0x7cfb]);
  (606347466371800400, [0x96c6]);
  (606465839599455500, [0x6761689d]);
  (607110893610034700, [0x533b91ab]);
  (608258461226270700, [0x5fc3]);
  (608476902334055400, [0x4ee3]);
  (609262624788695700, [0x592a]);
  (609564687173465100, [0x4f1a6703]);
  (609692757979187900, [0x4e2a500b]);
  (610711502152870300, [0x77f3]);
  (611319478526096300, [0x6559]);
  (611473534372172000, [0x91cd]);
  (611520983957878350, [0x7a7a]);
  (612295212112133800, [0x76ee773c]);
  (612955042950686000, [0x5efa]);
  (613208131365382100, [0x73b073fe]);
  (613292636712355800, [0x5b98]);
  (614458830687140100, [0x8fd0904b]);
  (615059359484972500, [0x6d41]);
  (615342488867189900, [0x5bb6]);
  (616951768991392600, [0x5236]);
  (617353451575041100, [0x4f539ad4]);
  (617902089243193600, [0x8fc7904e]);
  (620502966102490100, [0x540d]);
  (622059672272023100, [0x6708]);
  (622112421844655900, [0x5b63]);
  (624414134585407400, [0x6d88]);
  (626019720474652350, [0x4e1c6771]);
  (627005289636370200, [0x5316]);
  (628801347560146250, [0x8a088ba1]);
  (629020189199142400, [0x4e135c08]);
  (629289101681623550, [0x98059879]);
  (629971698188663600, [0x706b]);
  (630014515573175600, [0x68076a19]);
  (631539286195675400, [0x9ec39ec4]);
  (631865953394810000, [0x6211]);
  (631895042188557450, [0x73af74b0]);
  (632756990549196500, [0x767d]);
  (633426824859654200, [0x4fdd]);
  (634399039278316700, [0x5e73]);
  (634810055064499400, [0x8eab]);
  (635894239754643700, [0x4f2050b3]);
  (636982654807366300, [0x5148]);
  (638075309568617800, [0x6027]);
  (639509137608142700, [0x943594c1]);
  (639839326587377500, [0x53d1767c]);
  (640352492360416300, [0x8eca8f66]);
  (641442790057702400, [0x6c7d]);
  (642262335059351750, [0x535555ae]);
  (642617948462479400, [0x623f]);
  (642788119890441840, [0x503a50b5]);
  (642804341806285700, [0x540e5f8c]);
  (643227037932318200, [0x54c1]);
  (644563726004600700, [0x9577957f]);
  (644861369878743300, [0x6cb3]);
  (646304203798993500, [0x795e]);
  (646337811596318800, [0x6709]);
  (648049862905983700, [0x822a]);
  (648564090984619300, [0x65e5]);
  (648796359143580200, [0x540c]);
  (649600548699619000, [0x58f08072]);
  (649983290990099200, [0x5149]);
  (650674185338302400, [0x9636968e]);
  (650823484975221600, [0x5ba2]);
  (650964206194573600, [0x583162a5]);
  (651158021778106550, [0x6240]);
  (651308046074876850, [0x677f]);
  (652767016887710750, [0x56e0]);
  (652838733609744600, [0x6bd4]);
  (653171094122294200, [0x529b]);
  (653739559447402650, [0x4e6666f8]);
  (654466108824531700, [0x67436b0a]);
  (655023671623569200, [0x4e0a]);
  (655197975598712200, [0x98df]);
  (656037038195049800, [0x671f]);
  (656166751916563600, [0x7a0b]);
  (656808525034981100, [0x9996]);
  (657360573220608100, [0x529f]);
  (658540333022626600, [0x524d]);
  (659599755959364800, [0x9053]);
  (660254359760096100, [0x6548]);
  (660360655368500500, [0x7236]);
  (660699622329055300, [0x7cbe]);
  (661694073343889100, [0x533a5340]);
  (661743076138028900, [0x7d057ea2]);
  (662411909161449050, [0x70ed71b1]);
  (663085245698891700, [0x601d]);
  (663204541865738850, [0x901a]);
  (663593240217291850, [0x804c8077]);
  (664920159565711300, [0x5bf95c0d]);
  (665835079031070100, [0x8a2d8bbe]);
  (665896372321373950, [0x53cc96d9]);
  (666019071723270800, [0x7d307ec6]);
  (666388075832016200, [0x75c5]);
  (666923497209963400, [0x72b672c0]);
  (667016458018186600, [0x88c588dd]);
  (667784096642483600, [0x7db27f51]);
  (667846596644518100, [0x82b1]);
  (668704701533255800, [0x51c06de8]);
  (669157643793902150, [0x738b]);
  (669411343718561000, [0x5b69]);
  (670443322662736100, [0x9700]);
  (671216273370962900, [0x6b66]);
  (671345681347611700, [0x529e8fa6]);
  (672256256744928600, [0x81ea]);
  (672856990352089700, [0x5371]);
  (673230166067785250, [0x6838]);
  (673516478343538900, [0x5934982d]);
  (674502799854200000, [0x7528]);
  (674669996014199000, [0x589e]);
  (675307903163093900, [0x538b58d3]);
  (675341590210742700, [0x690d]);
  (675453962399216700, [0x7537]);
  (675645285399448900, [0x92fc94a2]);
  (676108223052280100, [0x513f5152]);
  (676312142914492600, [0x5c065c07]);
  (676561944338815650, [0x59d4]);
  (676778185247069100, [0x7fa4]);
  (677349484789949700, [0x77ff7926]);
  (677901020141856300, [0x6a21]);
  (678559943975572800, [0x6cb9]);
  (679585833131486350, [0x9752]);
  (679796976904943850, [0x8840]);
  (679949747367701550, [0x5408]);
  (679996800656418200, [0x53e4]);
  (680279586281415800, [0x7bc48303]);
  (682161490319412100, [0x534f5354]);
  (682402251239852300, [0x611f]);
  (684104006176222800, [0x767e]);
  (684423259885497100, [0x6982]);
  (685337523728561200, [0x6574]);
  (685548743288979600, [0x8a9e8bed]);
  (685660746287434600, [0x6da86f32]);
  (685885129328473700, [0x5bfc5c0e]);
  (686347948342113400, [0x5e725e79]);
  (686599015508894500, [0x836f85e5]);
  (688540824094604700, [0x89c089c2]);
  (688604922552026500, [0x4f866765]);
  (688861728034711600, [0x7164]);
  (689403175792967800, [0x53e3]);
  (689675003026554700, [0x5c40]);
  (690299111150391400, [0x8868]);
  (690691166017442450, [0x9ed1]);
  (691916397074951500, [0x672c]);
  (692261637093868500, [0x897f]);
  (692328166269364800, [0x8cb88d37]);
  (692581381570917550, [0x8349]);
  (692848618501737900, [0x652f]);
  (693843651587054700, [0x827a85dd]);
  (694114287746829000, [0x98db98de]);
  (694657767345424750, [0x8d70]);
  (695327580525637800, [0x9662]);
  (695602268241275200, [0x54689031]);
  (695932892595352650, [0x79cd7a2e]);
  (697252447820945900, [0x99ac9a6c]);
  (697420373972917850, [0x4e0b]);
  (697728972899267050, [0x53f8]);
  (698038527107339300, [0x6e05]);
  (698646345785462900, [0x56fe5716]);
  (698901882551431900, [0x8cea8d28]);
  (699429212213517500, [0x6728]);
  (700002443935092100, [0x901f]);
  (700016816913916700, [0x592b]);
  (700059948249500150, [0x8d8b8da8]);
  (700074329496379000, [0x5175]);
  (700738112597383540, [0x958095e8]);
  (701013574895524200, [0x59d1]);
  (702844993748786900, [0x76ae]);
  (703200497011659100, [0x5b50]);
  (703408459059276850, [0x5171]);
  (703810754170865850, [0x6e296eab]);
  (704229665615313900, [0x5c45]);
  (704319661121613000, [0x7701]);
  (704514929677838700, [0x6750]);
  (705846870058908600, [0x6bcd]);
  (705892591312467400, [0x5f00958b]);
  (706045146643351100, [0x5e085e2b]);
  (706888386595810800, [0x654c6575]);
  (707366819486187700, [0x7814]);
  (707413241150464300, [0x4e09]);
  (707971988529938740, [0x4f18512a]);
  (708252537342378650, [0x63aa]);
  (708471287429608100, [0x5dee]);
  (708612165593316400, [0x71df8425]);
  (708800312403286900, [0x7f8e]);
  (708863106753858900, [0x4eb289aa]);
  (709588090228724500, [0x5f375f3a]);
  (710286505766090900, [0x9057907a]);
  (710398068451978750, [0x53bf7e23]);
  (710525721253739600, [0x77e5]);
  (711681989154357600, [0x547d]);
  (714333535657340300, [0x6c99]);
  (714615904418994300, [0x97f3]);
  (714749060230945600, [0x7ba1]);
  (715099440167277700, [0x6545]);
  (715787073904025600, [0x6751]);
  (715837574704694800, [0x6001614b]);
  (716632101748028700, [0x671d]);
  (716683031211823800, [0x8863]);
  (716818970060285200, [0x7d447ec4]);
  (716989153899862200, [0x5b97]);
  (717741422791973400, [0x51b36c7a]);
  (718412970731143400, [0x7de87f16]);
  (719176068433474800, [0x8054806f]);
  (719245730574919600, [0x4efb]);
  (720719958748639900, [0x68376a23]);
  (720896918624937400, [0x8b708bae]);
  (721020977125562600, [0x8a698bd7]);
  (721572236634838200, [0x53ef]);
  (721786445927743700, [0x5c11]);
  (722377898498751500, [0x89d2]);
  (722918635216469900, [0x4f4f]);
  (723498662218735100, [0x8ca08d1f]);
  (724301732787657700, [0x8336]);
  (726319385684097400, [0x6e38904a]);
  (726675291276602600, [0x7c7b985e]);
  (727107826036512300, [0x4f4d]);
  (727239839257004700, [0x52b352de9152]);
  (727959539333200100, [0x5b9d5bf68cac8d23]);
  (728130755964012200, [0x79d8]);
  (728206946443888400, [0x7bc08282]);
  (728321341117945700, [0x6b63]);
  (728512290192577350, [0x548c]);
  (728914474015359400, [0x5144]);
  (729125789049329000, [0x5b8f]);
  (729356824962647400, [0x597d]);
  (730578599105619900, [0x80cc]);
  (730793463921167700, [0x4e8c]);
  (732748309466677200, [0x4f30]);
  (732808147904684900, [0x8def]);
  (733027862364390400, [0x53c253c3]);
  (733649667597213400, [0x8fb9908a]);
  (734012498069837600, [0x4f17773e]);
  (734640475419683000, [0x5e1d]);
  (735068131096409100, [0x76c8]);
  (735108955755069500, [0x4f4e]);
  (735415673100114800, [0x51fa]);
  (735477129621561500, [0x5b9a]);
  (735559130446164660, [0x68116a39]);
  (735784980044270300, [0x8239]);
  (736011340877626200, [0x80d6]);
  (736424223379938000, [0x8463]);
  (737673198816403300, [0x96349670]);
  (738261435806710000, [0x8fdb9032]);
  (738789587451652200, [0x8981]);
  (739044094481925400, [0x51b0]);
  (739086575366166600, [0x7cae7ce7]);
  (739768735334002100, [0x984c9898]);
  (741277384637340100, [0x771f]);
  (741342552446749700, [0x8cb48d35]);
  (742040331117455800, [0x5b57]);
  (742062215349953650, [0x6b65]);
  (742215539221847500, [0x5974]);
  (742588878845122900, [0x8ad68bba]);
  (742676926396485700, [0x54f2]);
  (743007796886932600, [0x76f4]);
  (743761847920447500, [0x9f8d9f99]);
  (744096333682184200, [0x5bab5bae]);
  (744454355993454350, [0x5a92]);
  (744499199043533200, [0x5f71]);
  (744948739022877300, [0x5143]);
  (745061440488655200, [0x4e497fa9]);
  (745400308993206800, [0x6bdb]);
  (745740329722023800, [0x5f395f48]);
  (746652744810984700, [0x516b]);
  (746859190577620500, [0x674296dc]);
  (746905125351051100, [0x98109884]);
  (747112093344903700, [0x5317]);
  (748060406222420850, [0x697c6a13]);
  (748877118264116400, [0x53d88b8a]);
  (749088212513959500, [0x7389]);
  (749135182923465600, [0x964d]);
  (749252705560097000, [0x65e07121]);
  (749393915279960700, [0x535a]);
  (749511742558821800, [0x52bf52e2]);
  (749558912371017100, [0x81118166]);
  (750031838293846900, [0x661f]);
  (750411796005769200, [0x56e25718]);
  (751056266550033400, [0x6821]);
  (751680818183806500, [0x9999]);
  (751825501112349000, [0x534a]);
  (751970393675732000, [0x811a8173]);
  (752188126917671800, [0x6e56]);
  (752625020816493000, [0x68c9]);
  (752746719748392900, [0x65d7]);
  (752771077317627900, [0x6c496f22]);
  (752966151751593800, [0x573a5834]);
  (753210531149853100, [0x5e38]);
  (753774880580449000, [0x7b56]);
  (753897987822391100, [0x526752877956]);
  (754590203194564250, [0x532f6c47]);
  (754689483421135400, [0x5668]);
  (755012826570652500, [0x670b]);
  (755487293686243300, [0x683c]);
  (756316756780431200, [0x4e607fd28d77]);
  (756443035367738400, [0x5e03]);
  (756746756178283300, [0x9b5a9c7c]);
  (757051402263099900, [0x963f]);
  (757484579141240700, [0x6e2f]);
  (757637914208339700, [0x5e7f5ee3]);
  (757740268362618400, [0x5bc6]);
  (757919640608021100, [0x8cbb8d39]);
  (757945291499530250, [0x670d]);
  (758022283675796000, [0x59875a66]);
  (758305096565159250, [0x5238]);
  (758614534666634100, [0x961f968a]);
  (758743750345551150, [0x8272]);
  (758924933260393200, [0x7da07eff]);
  (759418376671690300, [0x4e245169]);
  (759861952089151700, [0x8b66]);
  (760412628713454900, [0x793c79ae]);
  (760570523483100600, [0x6fc0]);
  (760834236716101400, [0x8ca28d2196469678]);
  (761125126779741700, [0x53f25fae]);
  (761257629780445100, [0x5370]);
  (761337215936655500, [0x7d217eba]);
  (761390308584571100, [0x5e45]);
  (761576355149863000, [0x4eea5100]);
  (761682823086457400, [0x5766]);
  (761896099626912100, [0x7a057a0e]);
  (762297223309557400, [0x515a7b147b469ee8]);
  (762484966424914800, [0x75be]);
  (762673062678141900, [0x660e]);
  (763456109746613300, [0x6d3b]);
  (763591739768761100, [0x753b756b]);
  (764464155334795000, [0x635f640d]);
  (764765814688737500, [0x76c6]);
  (764985776284160700, [0x9aa8]);
  (765206222777403300, [0x70ae]);
  (765289015661945000, [0x534e83ef]);
  (765759474534375900, [0x70df7159]);
  (766204290391520100, [0x5ca97532]);
  (766875246221441200, [0x620f6232]);
  (766959433121320200, [0x899689c6]);
  (767296891259334700, [0x5f1f]);
  (767522497672002900, [0x5f537576]);
  (768373084030780100, [0x7dda7ebf]);
  (768401561889437600, [0x9633967d]);
  (769001477986633600, [0x5f027570]);
  (769460984826175800, [0x68ee]);
  (769489774231873500, [0x725b]);
  (769807005932665300, [0x542b]);
  (770096274285949000, [0x813881c9]);
  (770125247196480500, [0x4ed35009]);
  (770241222854594300, [0x6f5b6f5c]);
  (770531751821297500, [0x59d0]);
  (770881504436648250, [0x56de]);
  (770969134061067000, [0x71c3]);
  (771115354294751700, [0x5178]);
  (772589437590173400, [0x56db6b7b]);
  (773035933346083500, [0x8ddd]);
  (773334708590746900, [0x536b79c1885b]);
  (773995173315227450, [0x78c1]);
  (774055432431241800, [0x59bb]);
  (774206239276291300, [0x5e935eab]);
  (775024549646559500, [0x8cec8d26]);
  (775941706794037800, [0x6625]);
  (776156925939370800, [0x6df1]);
  (776372609276718700, [0x666f]);
  (776465187589147900, [0x58eb]);
  (776588758812780700, [0x82f1]);
  (777053515652435400, [0x90fd]);
  (777770364600296700, [0x8457]);
  (777832942825117350, [0x4f9b]);
  (777864246628785100, [0x60a3]);
  (779092802008749400, [0x821e]);
  (779251406324313000, [0x91ce]);
  (779314918552551500, [0x6848]);
  (779473875826524050, [0x5b58]);
  (779856407373640300, [0x4e94]);
  (779984243760496700, [0x6797]);
  (780208351425928000, [0x57238056]);
  (780883703727506000, [0x8a718bdd]);
  (781012860994411200, [0x8c46]);
  (781368906037958850, [0x98f2996e]);
  (781856474044307250, [0x8dcc]);
  (782117485611739600, [0x591a]);
  (782150160011638200, [0x92b79500]);
  (782346430928423100, [0x8aaa8bf4]);
  (782773010738544350, [0x57065713]);
  (783499086535596940, [0x4e9a4e9e]);
  (783731220614302400, [0x667a]);
  (783830871843276360, [0x4e506a02]);
  (784531224881010000, [0x53cd]);
  (784598181696367300, [0x50a85132]);
  (784933639910982600, [0x6c5f]);
  (784967247708307800, [0x54e5]);
  (785034497206471100, [0x4e619109]);
  (785101791960020100, [0x6ce2]);
  (785641786522260950, [0x683986cb]);
  (786116685650881300, [0x611b7231]);
  (786150693473008100, [0x5976]);
  (786286840532840300, [0x6b4c]);
  (786354983635988200, [0x8033]);
  (786833289980048100, [0x96f7]);
  (786867542420869400, [0x6db2]);
  (787658604155720200, [0x9f3b]);
  (788282090761549500, [0x59048655]);
  (788316843151126000, [0x88ab8ecc8f68]);
  (788490786489469400, [0x5a5a]);
  (788665032917943900, [0x7d007eaa]);
  (789716936025395700, [0x5c04]);
  (790958306816585650, [0x79ef7a4d]);
  (791495076758086000, [0x928594dc]);
  (791746558837812600, [0x4f9d]);
  (792215281527588300, [0x679c]);
  (792396146109357100, [0x5305]);
  (792504822084552300, [0x6392]);
  (793268878921441440, [0x6bd2]);
  (793744808796546400, [0x5357]);
  (793781512779340600, [0x80e1]);
  (794223014600252200, [0x7167]);
  (794296788118906200, [0x65c5]);
  (794444498633207500, [0x7b498f2a8f6e]);
  (795223578811984300, [0x6ce5]);
  (795559337381469000, [0x984d989d]);
  (796234255578961750, [0x53825ee0]);
  (796384858017065600, [0x5a18]);
  (796422544092506900, [0x66f2]);
  (796724545077040900, [0x4f7f]);
  (797331297033292700, [0x4e3e8209]);
  (797636059173940200, [0x7b11]);
  (797712395055509700, [0x4e07842c]);
  (797980030466648700, [0x4e1859885abd]);
  (798787261450069900, [0x53f07d717edf]);
  (799019100812027900, [0x932f9519]);
  (799562158779691900, [0x51748208]);
  (799601061717354300, [0x5c01]);
  (799639979795292400, [0x9020]);
  (799795803745793900, [0x5047]);
  (800500032008335000, [0x5f69]);
  (800578586607818500, [0x6f14]);
  (800617887060279500, [0x4e73]);
  (800854014678847500, [0x9a0e9a91]);
  (801169721334124300, [0x76f8]);
  (801407157140170400, [0x80be814e]);
  (801684879992749300, [0x5bcc]);
  (802082969690451500, [0x706f71c8]);
  (802482650478303600, [0x76d176e3]);
  (802562778687719000, [0x82308266]);
  (802843734120373800, [0x80f8]);
  (803327216125832200, [0x8a558bc4]);
  (803408024211037600, [0x7d197eb8]);
  (803691367853345200, [0x76d09e7d]);
  (804505373162013600, [0x51b7]);
  (804546247881569200, [0x73bb]);
  (804668972380506800, [0x7d427ec8]);
  (804832839684688800, [0x70759748]);
  (805079145227928600, [0x96be96e3]);
  (805326058933620600, [0x4e08]);
  (805738941435932600, [0x67816975]);
  (805904572943777700, [0x678469cb]);
  (806111998863409700, [0x6e146f01]);
  (806195089852818500, [0x96359663]);
  (806319855932634000, [0x984f989c]);
  (806569856062842500, [0x770b]);
  (806820482760448400, [0x5634]);
  (807029819240494600, [0x53f68449]);
  (807113676687756900, [0x7403]);
  (807323628475985100, [0x9867987e]);
  (807660470899740300, [0x5de8]);
  (807787079905891200, [0x75ab]);
  (808592681040389600, [0x5893]);
  (808635261411482100, [0x5957]);
  (808805764436590600, [0x7f3a]);
  (810050682854247500, [0x541b]);
  (810310198570831400, [0x4efd]);
  (810396853688905400, [0x5c385c4d]);
  (810483583963206000, [0x6e20]);
  (810787733665410700, [0x886588dc]);
  (811005551220490300, [0x5e8a]);
  (811180147511024300, [0x7cd6]);
  (811223844256312000, [0x67008edf8f6f]);
  (811486426464078800, [0x75c7]);
  (811705772899906800, [0x5baa61b2]);
  (811881597121026600, [0x8fde9023]);
  (811969625295725000, [0x665a]);
  (812410932278483800, [0x7d2b]);
  (812455170279647700, [0x67aa69cd]);
  (813076565976442000, [0x84dd85cd]);
  (813567528801514000, [0x7968]);
  (813657054322265000, [0x4e9196f2]);
  (814240932019648300, [0x7f8a]);
  (814466411258357100, [0x8c37]);
  (814918900718186200, [0x6563]);
  (815419015422763300, [0x5c4b6ce1]);
  (815601497225226200, [0x8089]);
  (815921643851286400, [0x62366237]);
  (816611143250327100, [0x5c425c64]);
  (816703436750187200, [0x4e4c70cf]);
  (816888279686365400, [0x4e59]);
  (817631087187216500, [0x983b9891]);
  (817677696370069100, [0x62db]);
  (817911068704691100, [0x6df7]);
  (818004570347781800, [0x7e967ea4]);
  (818051353974366000, [0x8f498f6c]);
  (818379453635933800, [0x9632]);
  (818661541270097900, [0x6eb6]);
  (819086170358243000, [0x8d85]);
  (819370261458403300, [0x8461]);
  (819988574962187600, [0x7267]);
  (820084040363232700, [0x5c3e5de65e95]);
  (820227409563417500, [0x7070]);
  (820658754588789400, [0x4f2450b7]);
  (820947355077702800, [0x6b276b50]);
  (821091968262703000, [0x9ebb]);
  (821236790880339400, [0x808c]);
  (822500784373921300, [0x4f5b]);
  (822696670822454700, [0x5ba3]);
  (823089598636443600, [0x7126]);
  (823335964861080800, [0x7f6a]);
  (823681900466755800, [0x7af9]);
  (823731417674997000, [0x51fd]);
  (824626946047907500, [0x96ea]);
  (824776983585431000, [0x7dad7ef4]);
  (825379395045769100, [0x903b908f]);
  (825480150721799000, [0x53f3]);
  (825985457506938100, [0x6d1e]);
  (826493330614839600, [0x6b96]);
  (827157445443969800, [0x9bae9c9c]);
  (827260009555524800, [0x5de166b4]);
  (827311331086032800, [0x7530]);
  (827465453901026200, [0x8f158f7b]);
  (827877613165581200, [0x4f599918]);
  (828136078029034600, [0x6676]);
  (828395212664844200, [0x835290099078]);
  (828603004947402900, [0x8d64]);
  (828811229905510800, [0x5bb9]);
  (829438518946238900, [0x504f]);
  (829543450750200700, [0x969c]);
  (829753645257437900, [0x6d0b]);
  (830598869518069800, [0x7d20]);
  (830651933992650100, [0x6562707d707e]);
  (830970913529460000, [0x98ef996d]);
  (831024175847630000, [0x77ed8179]);
  (831130785665829700, [0x523a]);
  (831290913802527000, [0x965b]);
  (831451298760724600, [0x8859]);
  (831558365152108600, [0x5e7c]);
  (831826533722579600, [0x6b8b6b98]);
  (831880253842055800, [0x76d876e4]);
  (831934002835556200, [0x5c1a]);
  (831987780734136400, [0x96e8]);
  (832041587568902400, [0x8b1b8bb2]);
  (832257104893700700, [0x8102]);
  (832311056877744800, [0x59b9]);
  (832419048248931000, [0x5bd262a48b77]);
  (832473087699043800, [0x9676]);
  (832527156367568300, [0x65e7820a]);
  (832743723858818000, [0x8de18ff9]);
  (832797939094627000, [0x96f6]);
  (833069457045848700, [0x8fdc9060]);
  (833232722388237300, [0x8003]);
  (833505425038829800, [0x52a0]);
  (834548530845988300, [0x7c98]);
  (835268556111227600, [0x51c66e96]);
  (835435454620066400, [0x798f]);
  (835491149414043000, [0x7acb]);
  (835714239300209600, [0x56ed57128857]);
  (835825971155408900, [0x6b21]);
  (836442737898895800, [0x91dd9488]);
  (836611609315329300, [0x6297672b]);
  (836780766389778200, [0x79bb82e696e2]);
  (837630870687571200, [0x501f526f]);
  (838087232004420600, [0x755c]);
  (838201648492875200, [0x5947]);
  (838373519059388400, [0x6a61]);
  (838430874954278800, [0x7ade7af6]);
  (838545685529461900, [0x68fa]);
  (839006250534720300, [0x503e50be]);
  (839063970594042800, [0x4e2b58517c92]);
  (839237330937951900, [0x505a]);
  (839468946559734900, [0x8ab28bfe]);
  (839584955853487900, [0x590d]);
  (839759222525530900, [0x60f3]);
  (840050343546276900, [0x8a00]);
  (840342314556610300, [0x58c1]);
  (840576506701118500, [0x67a26a1e8305]);
  (840987667339087600, [0x96d5]);
  (841105452982858300, [0x826f]);
  (841223377524825700, [0x98029876]);
  (841459644616422900, [0x8f4e8f7f]);
  (841518798714569000, [0x5eb7]);
  (842589600141816100, [0x4f8d]);
  (842769187140097400, [0x7518]);
  (843430445936756900, [0x70b99ede]);
  (843611550725164400, [0x65e9666e786c]);
  (843671991947917200, [0x53d7]);
  (843732469724178500, [0x754c]);
  (843974747250320900, [0x7238]);
  (844156841382579300, [0x4e92]);
  (844217613186333600, [0x96de9e21]);
  (844522027424456400, [0x6d2a]);
  (844644053064979300, [0x80c681bd]);
  (845072319244179400, [0x521d]);
  (845133650126200000, [0x591c]);
  (845440870029897000, [0x9ce59e1f]);
  (845564022754821700, [0x545854e1]);
  (845749036683637800, [0x73ed]);
  (846120094623291400, [0x520087ba]);
  (846244087199623400, [0x8a5e8bcd]);
  (846306141188583400, [0x6de17a81]);
  (846679275949869100, [0x5a01]);
  (846741600663634800, [0x5996]);
  (846866366743450300, [0x6cea6dda]);
  (847304277984386400, [0x959395f4]);
  (847555376672502100, [0x843d]);
  (848312478080716700, [0x7591]);
  (848629636608546000, [0x6ee16eff]);
  (848820415680718700, [0x5ab3]);
  (849266987395755300, [0x638c]);
  (849330946464133200, [0x73a9809d]);
  (850037209431964400, [0x5f8b]);
  (850101663188627000, [0x76db]);
  (850295274091313600, [0x9014]);
  (850554006447808700, [0x51e05e7e]);
  (850813409965513400, [0x653e]);
  (851138613504151000, [0x6025]);
  (851203781313560600, [0x7248]);
  (851334244476227100, [0x56fa]);
  (851464878067632600, [0x5b87852c]);
  (851530258913374600, [0x7d9c7efc]);
  (851595682533634200, [0x72ec7368]);
  (851726658321840600, [0x5956734e]);
  (852120618122248700, [0x63d0]);
  (852714483279007000, [0x5f15]);
  (852913224649490700, [0x684c]);
  (853511829696021000, [0x59315c9b5cf6]);
  (854046948029807000, [0x906d]);
  (854114039612330300, [0x559c]);
  (854248357966977000, [0x5a4690ae90f5]);
  (854315584860265400, [0x7b54]);
  (854450174382601000, [0x7259]);
  (855329449577398600, [0x88e191cc]);
  (855397407446137000, [0x82a68606]);
  (855669701691982700, [0x51b2885d]);
  (855806127361164000, [0x4e7058fd5bff8cb7]);
  (856148008036042500, [0x5f845f91805a]);
  (856353698886760400, [0x5308]);
  (856559813696934400, [0x6c27]);
  (856628613149252500, [0x5473]);
  (856835295964818800, [0x8015]);
  (857111539234410000, [0x63a8]);
  (858084444754221700, [0x5e9f5ee2]);
  (858154301550635700, [0x4eac]);
  (858434217758597200, [0x99d09a7b]);
  (858504319408856600, [0x6301]);
  (858714919697295500, [0x5e84838a]);
  (858855566696570700, [0x70b8]);
  (858925964446750200, [0x4f1959255e976606]);
  (859349394860629100, [0x809a]);
  (859420141237828000, [0x7a337a69]);
  (859561784320999500, [0x5409]);
  (859845673794842000, [0x677e]);
  (859916772269219900, [0x8116]);
  (860059121047705200, [0x9178]);
  (860130371496034700, [0x5899724683dc89e3]);
  (860273024872580200, [0x5217]);
  (860344427945945800, [0x4e1d79e97d72]);
  (860558943580584700, [0x7d557edd]);
  (860630551174049000, [0x7709]);
  (860702210080734200, [0x5c3a83e9]);
  (860845682128300300, [0x5ea7]);
  (861061276893807000, [0x8af88bf8]);
  (861133245230846500, [0x704c]);
  (861566146339805000, [0x9650]);
  (861710864165351600, [0x6551]);
  (862000929633415300, [0x81708b808bfb]);
  (862073577656952000, [0x8a668bd5969096b1]);
  (862219032228051300, [0x63a2]);
  (862583596977435900, [0x80a9]);
  (863022836336627600, [0x67f4]);
  (863096230835335000, [0x79f07a31]);
  (863537732656246800, [0x6d536fc3]);
  (863611506174900800, [0x898b89c1]);
  (863907145710261000, [0x68636a94]);
  (864055293885505200, [0x7e6a7ed8]);
  (864129450359055600, [0x5211]);
  (864277928485813600, [0x5b89]);
  (864426627397971400, [0x4e58]);
  (864650091178113000, [0x5883]);
  (864874055437463500, [0x6d516e3e]);
  (865774962431700000, [0x7a97]);
  (865925905856585500, [0x52dd5fa1669779a680dc]);
  (866304264234549300, [0x65ad65b7]);
  (867218208143858700, [0x9b3c]);
  (867524721793796300, [0x53f7865f]);
  (868217832000196300, [0x517b990a]);
  (868682588839851000, [0x5438]);
  (868993631081290200, [0x9806987a]);
  (869305643814914600, [0x5f31]);
  (869383799348396600, [0x9759975c]);
  (869462016012532900, [0x6469]);
  (869775495893070000, [0x6298]);
  (869854019650540200, [0x84b8]);
  (870011252387335400, [0x6f6e]);
  (870247566006563700, [0x604660529b54]);
  (870484439390118900, [0x914d]);
  (870880479511728500, [0x607660e1813e]);
  (871198444803466500, [0x51a0]);
  (871357807386994300, [0x539a]);
  (872238870355209700, [0x5112]);
  (872319353256938400, [0x8a028ba293269526]);
  (872641934181826800, [0x8cfc8d2d]);
  (872722742267032100, [0x78b3]);
  (873127765096934300, [0x5c5e5c6c]);
  (873208966887835600, [0x83b284ee]);
  (873290234669634600, [0x68c06aa2]);
  (873534435035189600, [0x8c6a]);
  (873697567208398000, [0x5cf0]);
  (873779233199053700, [0x6ce8]);
  (874024632095210300, [0x4f8b]);
  (874188566558153600, [0x7d1a7ea7]);
  (874434973253669600, [0x5225522b]);
  (874599582344336400, [0x724c]);
  (874847005150971700, [0x5e8f]);
  (875177857396527700, [0x786b]);
  (875343694913805200, [0x7237723a]);
  (875926301638741300, [0x9ea59ea6]);
  (876680389837202700, [0x4e1e]);
  (876764529514021800, [0x59ff6cbc]);
  (876933021550513700, [0x963b]);
  (877101797961885800, [0x79df]);
  (877355497886544600, [0x574790bb9130]);
  (877609843085127600, [0x60ef6163]);
  (877864836848454800, [0x4ecb]);
  (878205843146509000, [0x56f4570d]);
  (878376783359074000, [0x59d3]);
  (878891364254414300, [0x7c89]);
  (879063481336491700, [0x80f3]);
  (879149651096239800, [0x75977642]);
  (879408606786913300, [0x80ba]);
  (879495074583048500, [0x51b6]);
  (879581617210691400, [0x6d6e]);
  (879668234799476400, [0x9644]);
  (880189521818329700, [0x57f7626767d3]);
  (880363889778812400, [0x68656a4b]);
  (880538562312306500, [0x4ed9]);
  (880626013126799700, [0x7e317eb5]);
  (880976583161562700, [0x7981]);
  (881064418037653100, [0x7b26]);
  (881416531077511100, [0x5587]);
  (881504753403480200, [0x73cd]);
  (881769888335642300, [0x80bf80f6816b81a093e1955c]);
  (882035728102303200, [0x6ea2]);
  (882124498636317300, [0x780178bc]);
  (882213348042428800, [0x52a9]);
  (882302276460917200, [0x8abf8c03]);
  (882569537199064800, [0x865a865b]);
  (882748108675088300, [0x6c89]);
  (883106211116859000, [0x730e7375]);
  (883375632025228000, [0x6444651d]);
  (883645780771244200, [0x80ce]);
  (883735992775557800, [0x4fee8db3]);
  (883826286235417200, [0x5750]);
  (884188277580930700, [0x80a5]);
  (884278980534994800, [0x8ca78d2b]);
  (884642617299333300, [0x53d45fe0]);
  (885465667212984700, [0x65cb75bc]);
  (885557536764692000, [0x6905]);
  (886018154806181700, [0x6d3e]);
  (886388182980467400, [0x73ca781678da]);
  (886480904359386600, [0x676069d3]);
  (886573711790642000, [0x7194810a]);
  (886666605434108000, [0x578b]);
  (887132372461506000, [0x5c4f]);
  (887319288403776300, [0x5e7b]);
  (887976259326092400, [0x6d6a]);
  (888164760795669600, [0x6a2a6a6b]);
  (888637574915264100, [0x5145]);
  (889112635191124000, [0x4e89722d]);
  (889303293018182100, [0x62d08fd1]);
  (889494315043794000, [0x7e7c7ee7]);
  (889781534006203700, [0x8f388f93]);
  (889973472644784000, [0x53437ad9]);
  (890165780396358000, [0x788e]);
  (890358458683328100, [0x5a035bbf]);
  (890841784902130100, [0x9910]);
  (890938731104585000, [0x552f]);
  (891035771383912800, [0x5bfa]);
  (891132905922875900, [0x91cf9f13]);
  (891230134904769900, [0x80c3]);
  (892011388878449200, [0x5c3f]);
  (892109476184008400, [0x88c2]);
  (892502790358692000, [0x98e29965]);
  (892897657604233800, [0x5ac2]);
  (893095677470920000, [0x8f098f7d]);
  (893592449481113400, [0x5e2d]);
  (893791851341799800, [0x959295f2]);
  (894091701641425600, [0x53cb]);
  (894191851875134500, [0x55d3]);
  (894492905790421500, [0x5341]);
  (894593458840623500, [0x99d59a7e]);
  (894895726073282000, [0x6c618aa48bef]);
  (894996685193417300, [0x574f58de628a]);
  (895097746344009700, [0x95ca961496c4]);
  (895198909731494100, [0x80da]);
  (895300175562932700, [0x72729dd39e67]);
  (895401544046017300, [0x70c881088109]);
  (895503015389072000, [0x92c194dd]);
  (895808048670834200, [0x537563a5]);
  (896011922339819100, [0x8584]);
  (896216212502799000, [0x7d0d7eb3]);
  (896523432406496200, [0x5feb]);
  (896728771287680400, [0x82f9860b]);
  (896934532677148300, [0x59516279]);
  (897037572356538000, [0x732a8c6c]);
  (897347329960951400, [0x73e07f577f85]);
  (897450796085029100, [0x50e77802]);
  (897554369372382300, [0x76df]);
  (897658050045226300, [0x5bbd5bec]);
  (897969738609251600, [0x542c807d]);
  (898491388201140700, [0x82068f3f]);
  (898700812361452300, [0x68856e9078f7]);
  (898910676027144400, [0x60b2]);
  (899015773251741700, [0x6c226c2b]);
  (899120981046822200, [0x6696]);
  (899437270187673000, [0x592268a6]);
  (899542922601093000, [0x7a3b]);
  (899648686756906600, [0x7db17eb2]);
  (899966652048644500, [0x5a745b30]);
  (900072865547743000, [0x4ec650d55fd7]);
  (900498851282438700, [0x4eae7b97]);
  (900712526577412100, [0x96a7]);
  (900819535683396600, [0x52c7]);
  (900926659421546500, [0x5ce15cfd]);
  (901033898037721700, [0x69ae8363]);
  (901141251778574100, [0x7cfe7ea0820c]);
  (901248720891550700, [0x602a]);
  (901356305624897000, [0x53475ff5]);
  (901571822949695300, [0x5b547834]);
  (901679756041662900, [0x88e48932]);
  (902221175880750000, [0x4e5d]);
  (902656432280634400, [0x932294b1]);
  (902765543038867900, [0x7c73]);
  (902874772978728800, [0x53bb5f92]);
  (902984122360865800, [0x58a8]);
  (903093591446784000, [0x975e]);
  (903203180498847800, [0x62f3]);
  (903312889780285000, [0x627f]);
  (903422719555191200, [0x4f2f]);
  (903532670088533000, [0x7de37f18]);
  (903752934494767100, [0x684679fb]);
  (903863248901982900, [0x6c28]);
  (903973685136288200, [0x5377]);
  (904527703173849900, [0x53a85eda]);
  (904638876059118900, [0x7b807c21]);
  (904750172676061000, [0x7e547ec7]);
  (904973138208787700, [0x594f]);
  (905532736759200000, [0x6e2474f7]);
  (905645033233662200, [0x7bb1]);
  (906095484445772700, [0x5e7d653b947d94bb]);
  (906774988759055700, [0x540a]);
  (907116480269062500, [0x547c9769]);
  (907230570412641800, [0x60ac61f86c0f]);
  (907344790870519400, [0x6253]);
  (907459141940727300, [0x7011]);
  (907917858341418000, [0x5e557a00]);
  (908263281828226700, [0x72ee7345]);
  (908378688650037300, [0x67406bba85cf]);
  (908725710397938000, [0x70e771d2]);
  (909423387646503000, [0x53c8]);
  (909540141892106600, [0x5be15dde]);
  (909891224757112800, [0x7e697ef3]);
  (910125966648943500, [0x8377]);
  (910243544557844700, [0x692d6a62]);
  (911189178082048200, [0x82cf8607]);
  (911308013508986100, [0x5802]);
  (911546108859560200, [0x57835e105e33]);
  (912263815289596600, [0x62c9]);
  (912504200020736000, [0x5361]);
  (912986710003911700, [0x5c4193ae9418949f9547]);
  (913350126515333600, [0x5496]);
  (913714868561038000, [0x79cb97ad]);
  (913836745480451000, [0x7ae0]);
  (913958771120973900, [0x5bb07ae58702]);
  (914325744009870000, [0x684372c2]);
  (914694068551499800, [0x68d5]);
  (914817145490113000, [0x68af]);
  (915063754739632400, [0x521a525b663e986f]);
  (915310973654171400, [0x65f1]);
  (915558805255618000, [0x5564659c]);
  (915682951764424600, [0x6d456dfa8ce68d4b93c894fe]);
  (916431084929653400, [0x8fa3]);
  (916556319761300000, [0x51e49cf3]);
  (916681711627259300, [0x71d5]);
  (916807260921842500, [0x8ef88f74]);
  (917311040324838300, [0x751c]);
  (917437382729515400, [0x56f080a08178]);
  (917690547421693400, [0x5b595b6b]);
  (918071500263360100, [0x8c9d8d1d]);
  (918453909907200500, [0x6c577fbd9a3e9aa1]);
  (918966074919206000, [0x8986]);
  (919223144469516000, [0x51995beb]);
  (919351927487959000, [0x5e995edf6e7f6fd5]);
  (919868724503803200, [0x78b19e7c]);
  (919998342149947800, [0x7247]);
  (920128128021508000, [0x53568ce3]);
  (920258082555716500, [0x81e3978b]);
  (920779596123627200, [0x5c0a5f8563a7]);
  (920910400589628800, [0x6746687f]);
  (921041376377835200, [0x864e]);
  (921172523937616300, [0x540f]);
  (921303843720112200, [0x5c975d17]);
  (921698840942043600, [0x5411]);
  (921830854162536000, [0x659198fc9972]);
  (922360656726291400, [0x5acc6cbb]);
  (922893281154558800, [0x7aef]);
  (923563076022971600, [0x5e9461c9]);
  (923697575034505000, [0x50bb]);
  (923832255189542700, [0x8ce28d24]);
  (924102160886459200, [0x4f84]);
  (924372797046233600, [0x4e1b53e2]);
  (924916276644829300, [0x6dcb]);
  (925189128110149600, [0x5584968f96a8]);
  (925462726092037000, [0x62128b6f8bd1]);
  (925737074686612300, [0x5c816b72]);
  (925874531752929000, [0x5fb7]);
  (926012178023801300, [0x624d7b2c]);
  (926150014020813300, [0x58755c18613f9858]);
  (926288040267709300, [0x8936]);
  (926842058305270700, [0x54cd718a97ff]);
  (927120222601458400, [0x4f26502b5bbe785d8cd3]);
  (927678883272322400, [0x600061f7846b]);
  (927819037464851200, [0x6ee86ff1]);
  (927959388365083300, [0x552e]);
  (928240682502744700, [0x6c2f]);
  (928381626853068000, [0x679d]);
  (928664112916623600, [0x5e3d]);
  (928947399225054000, [0x79e67c97]);
  (929089343890476500, [0x5c55]);
  (929231490325214300, [0x5939593e]);
  (929659146001940300, [0x74e67f50]);
  (929802105282899800, [0x796d8721881f900f]);
  (930232213472838900, [0x5b62]);
  (930375994949801600, [0x53eb]);
  (930519983455600500, [0x5b64]);
  (930664179587290400, [0x7f6e]);
  (930953197129513800, [0x5cb37d147eaf]);
  (931243052404915000, [0x63d2]);
  (931388295712946500, [0x55895708]);
  (931825295680058300, [0x8910]);
  (932557899689265600, [0x7578]);
  (932852450712241300, [0x9006]);
  (933147871901984500, [0x9738]);
  (933295910419027800, [0x4ff1575f58b3]);
  (933444168415050200, [0x50ac]);
  (933592646541808000, [0x6d17]);
  (933741345453965900, [0x8c61]);
  (933890265809112700, [0x6ed1]);
  (934338362152616300, [0x9675]);
  (934788475440695300, [0x5b8874f6]);
  (934938964558637400, [0x8a8d8ba4]);
  (935089680487694600, [0x7586]);
  (935543196004233700, [0x59e87334]);
  (935694826056030100, [0x6069]);
  (935846686373749000, [0x516d6b3e]);
  (936151100611872000, [0x52b252c196cc]);
  (936456444360561000, [0x7a917aaf]);
  (936609466578637800, [0x51c96dbc]);
  (936916215285423900, [0x4f2a507d]);
  (937532550056190800, [0x59655967]);
  (937997306895845500, [0x5df46ecb]);
  (938152707082519000, [0x514d67f1]);
  (938308349137284700, [0x6247]);
  (938464233814213800, [0x810f81df]);
  (938620361870909100, [0x5ba6]);
  (938776734068527400, [0x7bee7c43]);
  (938933351171801800, [0x5f815fb563a191c7]);
  (939090213949064500, [0x67b6]);
  (939247323172268600, [0x5f559304]);
  (939562284062558300, [0x9d1b9e33]);
  (939720137291863200, [0x62d665cf]);
  (940195197567723000, [0x566a75d588c1]);
  (940354053836236800, [0x7e2e7f29]);
  (940672525442988800, [0x84c486958836]);
  (940832142396271000, [0x51655b556d3c6e217a777aaa7aae]);
  (940992014532640700, [0x695a]);
  (941312527627535500, [0x934b9505]);
  (941634071312933000, [0x50197d177eb1]);
  (941795231702367100, [0x54ed]);
  (941956652237821100, [0x65578d259d099e26]);
  (942118333760511800, [0x671b]);
  (942280277115742100, [0x57615f97]);
  (942442483152928800, [0x78e8871c]);
  (942767686691566600, [0x719f]);
  (942930685912659800, [0x958395ea]);
  (943093951255048200, [0x68cb77fd7845]);
  (943421283789545100, [0x72d782b385aa]);
  (943585352735291100, [0x5531]);
  (943749691309664100, [0x5c16]);
  (943914300400331000, [0x51ac]);
  (944244333703196800, [0x5e265e369a459a71]);
  (944575459833562400, [0x7e2b7f1d]);
  (944741434975398800, [0x82cd84bc]);
  (944907686052760100, [0x4f736c9f6e9d7891]);
  (945241019694735800, [0x4fa75074]);
  (945408104111217700, [0x4e196cb8]);
  (945575468167020700, [0x99459992]);
  (946247739606508300, [0x5e9c98469897]);
  (946585577765671000, [0x6cf08fa98faf]);
  (946924561141122100, [0x80f0]);
  (947094484716418200, [0x4ec7]);
  (947264697523471200, [0x526989e689f8]);
  (947435200548579600, [0x5bc481ed8499]);
  (947605994783095300, [0x64cd8205]);
  (947948460871231500, [0x501276f2]);
  (948120134733137100, [0x54d1555e]);
  (948809792639043000, [0x699c]);
  (949156413436691800, [0x5348]);
  (949330175426545800, [0x8eaf8ec0]);
  (949504239874324300, [0x798579aa]);
  (949678607834807000, [0x67f36da16e26]);
  (950203543423421200, [0x82ad8896]);
  (950379136093647700, [0x6258]);
  (950731249133505700, [0x76d776dc]);
  (950907771685962500, [0x53db]);
  (951261754356475000, [0x62c564d4720672af]);
  (951795088954011200, [0x7def7eac]);
  (952152232190770900, [0x4fd87b797c4c827e]);
  (952510655513552400, [0x50f5]);
  (952690350081222600, [0x6b32]);
  (953231379354047400, [0x4f6350ad]);
  (953412374878571400, [0x601272619732]);
  (953593698590989400, [0x74dc]);
  (954322299264082700, [0x54bd]);
  (954688600039956400, [0x590f]);
  (955610265550448900, [0x517d7378]);
  (955795622415381100, [0x7d0b7eb9]);
  (956353763399200600, [0x8f5f8f70]);
  (956540504816680200, [0x72b97336]);
  (957102830572116400, [0x51bb51cd]);
  (957479478851664100, [0x606f]);
  (957668336320451000, [0x52cb52f3]);
  (958047124652144600, [0x4e714e8254fa925b94c5]);
  (958237058232510000, [0x71928367]);
  (958427353247118500, [0x4ed6]);
  (958618011074176700, [0x65397a7f947094a5]);
  (958809033099788600, [0x53675b8581e5]);
  (959000420718017000, [0x767b]);
  (959384298348733500, [0x67d1]);
  (959769655280332600, [0x6668]);
  (959962892055437900, [0x680f6b0492ea94fa]);
  (960156502958124500, [0x5a765b38866b87f296cd]);
  (960350489439907300, [0x53955ec1]);
  (960739594989204000, [0x57515bb38cde8d4f]);
  (961130220485910400, [0x676f]);
  (961719034748432700, [0x5782672a95a895fa]);
  (961916079147162500, [0x4fb58cfd8d5b]);
  (962311336578744800, [0x5c3c8180819d]);
  (963306369664061700, [0x50f196c7]);
  (963506569931128900, [0x62ff7d047ea6]);
  (963707171803815600, [0x662f]);
  (963908176896618000, [0x6c1b73ab]);
  (964109586833788200, [0x6bbf8e2a]);
  (964311403249411800, [0x5c48]);
  (964919307857050000, [0x644a6524]);
  (965122766726828700, [0x60e8615879c0]);
  (965530930558793600, [0x51cf597859e66bd56e1b756282ef]);
  (965735638920966200, [0x708e7b77]);
  (966146317116231400, [0x5f13]);
  (966352290412532400, [0x5446]);
  (966765514141023600, [0x7978798d]);
  (966972768101220800, [0x8a548bcf]);
  (967180452495704700, [0x5bb4]);
  (967597119765189400, [0x55b75674]);
  (967806106257135200, [0x7fc5]);
  (968646447336773200, [0x5f27944494f8]);
  (969069280947725400, [0x6fb3]);
  (969281370104639000, [0x4e5455ac8de8]);
  (969493910035870400, [0x50766050]);
  (969706902661652800, [0x4ec1]);
  (969920349914516100, [0x4f4365979b25]);
  (970134253739391100, [0x5ead69b4]);
  (970563438947545300, [0x4e9553855ef37761]);
  (970778724283655200, [0x4fa650756cbf]);
  (970994474097657400, [0x4fd7801099f19a86]);
  (971427375206615900, [0x500d]);
  (971644530557966800, [0x5c6f778e]);
  (971862158500226200, [0x523b58ee58ef663c665d]);
  (972080261094862400, [0x526a6eaa]);
  (972298840416860300, [0x4e345ba481e8]);
  (972517898554842300, [0x5b5d785578a9]);
  (972737437611185700, [0x5e2e5e6b]);
  (973177966957977400, [0x5fc57384]);
  (973842421229844200, [0x7d277dca]);
  (974064890732055500, [0x5154520799289986]);
  (974287856264782300, [0x5757584a]);
  (974511320044924000, [0x503c]);
  (974735284304274400, [0x51a4]);
  (974959751289656800, [0x731b]);
  (975184723263058300, [0x67af]);
  (975410202501767300, [0x7a3f]);
  (975636191298511000, [0x5f808ff7]);
  (975862691961596200, [0x7a9d7aa98ced8d4c8feb8ffd]);
  (976089706815050200, [0x59ca82d7]);
  (976317238198763700, [0x520a]);
  (976545288468636300, [0x8f3b8f90]);
  (976773859996721900, [0x5f526b789b45]);
  (977462726096240400, [0x4f1e509899b49a6f]);
  (977693406706031900, [0x679597f597fb]);
  (977924620681869800, [0x52fe6842]);
  (978621487613479000, [0x70897210]);
  (979088778183418500, [0x59829c579cde]);
  (979323244879343800, [0x54e877638cbf8d389e7f]);
  (979558262613839200, [0x8708]);
  (979793833983085000, [0x4e2556b4878d98389888]);
  (980029961601653100, [0x4e018b208c238fbe9054]);
  (980266648102679700, [0x886c896f]);
  (980503896138042700, [0x4e3a70ba8f448f96]);
  (980741708378539400, [0x6851]);
  (980980087514067000, [0x4f5567dc6ac3]);
  (981219036253805200, [0x6731675c]);
  (981698653480154500, [0x59cb]);
  (981939327483211000, [0x829d83ca]);
  (982422420210177600, [0x8a138bad]);
  (983151463536445500, [0x764c]);
  (983395663902000700, [0x6cc9]);
  (983885860962021400, [0x6478]);
  (984131863546107500, [0x52425291]);
  (984873523311612500, [0x72e98b008c0b]);
  (985121970644378700, [0x5224]);
  (985371036775624000, [0x786e78ba]);
  (985620724795482600, [0x96689695]);
  (985871037817294600, [0x7435]);
  (986121978977837000, [0x4e0368cd]);
  (986373551437561800, [0x6f06]);
  (986878603016168700, [0x70e4]);
  (987386218319354600, [0x63169a5b9a7f]);
  (987640995527234500, [0x558a7434]);
  (987896423507744200, [0x9002906996949707]);
  (988409245144436200, [0x966a9f529f7f]);
  (988666645543953500, [0x5e0c820d86c7]);
  (988924710203302700, [0x6768694a]);
  (989442846077502500, [0x76d678a77d687ed284cb8ce08d54]);
  (989963680588216200, [0x53a25ec277407e3e7ee9877490e1]);
  (990225118645623300, [0x53518299]);
  (991013558998038100, [0x75db914b964896739677]);
  (991277759944322000, [0x4f5453605cb865fa8dd1]);
  (991542660761479800, [0x98019875]);
  (992074576909239700, [0x4e39]);
  (992609337541899400, [0x626b63838fc19077]);
  (992877794078966100, [0x51ed619162416a4490ce]);
  (993146973245537300, [0x632f65af6930]);
  (993416878942453800, [0x6f0f7235]);
  (993687515102228100, [0x53d66ef475af760b]);
  (993958885689387700, [0x83cc]);
  (994230994700823900, [0x50995824590776b176ba]);
  (994503846166144200, [0x4fbf7b4b]);
  (994777444148031600, [0x4e4b5fbd83e08acb8bf7]);
  (995051792742606800, [0x4e1165e8793a919c]);
  (995326896079795800, [0x7bad82318259]);
  (995602758323703800, [0x5bd363f46c60]);
  (995879383672992800, [0x553e6dc085e48aa08bda8cbc8d34]);
  (996156776361265300, [0x6c38]);
  (996713880866210800, [0x575d58e9620897cc97e7]);
  (996993601328316900, [0x4e2755aa6613]);
  (997555400558739300, [0x56da5cad5dba672f6c2e81508853929894ed]);
  (997837488192903300, [0x70bc71497d22]);
  (998120373812951200, [0x6ee970587de07f14]);
  (998404061946471000, [0x585459998f298f88]);
  (998688557159694300, [0x80178682879e978d]);
  (998973864057934900, [0x755981f4]);
  (999259987286038200, [0x8a318bb8]);
  (999546931528833400, [0x72d07b7e7c3d]);
  (999834701511594800, [0x81c0]);
  (1000123302000508500, [0x5065783e792b947c9523]);
  (1000412737803144800, [0x5f0a75337e41]);
  (1000994134789686800, [0x6a316afb732b8c939d289e2d]);
  (1001286105800020300, [0x68d27d107ebd]);
  (1001578931777929000, [0x64166447]);
  (1001872617745260100, [0x51dd]);
  (1002167168768235900, [0x5be8]);
  (1002462589957978900, [0x4fc49903997a]);
  (1002758886471044700, [0x572a5ea6]);
  (1003056063509960400, [0x4ee45c65868a96cf96db]);
  (1003354126323774200, [0x5251528d536458576d829e75]);
  (1003653080208610900, [0x817a90aa]);
  (1004253682614632000, [0x7239]);
  (1004555341968574600, [0x7b75]);
  (1004857914060228200, [0x5e066302639b80a2]);
  (1005161404429743600, [0x5a1b5a31932b9521]);
  (1005771162416555400, [0x57f98574860a]);
  (1006077441369610000, [0x8f9e8fad966996aa]);
  (1006384661273307100, [0x4f0f67d4]);
  (1006692827927048000, [0x7960841d863f]);
  (1007001947184015100, [0x505c52e46028]);
  (1007312024951840000, [0x5510599362bd7599]);
  (1007935079926903700, [0x6c646e6f86119000]);
  (1008248069227796300, [0x62b576d2]);
  (1008562041228263200, [0x8cca8d3c8f148f85]);
  (1008877002118552800, [0x63098df3]);
  (1009192958147589700, [0x59607d667ed9]);
  (1009509915623717500, [0x53e55e165e187c3e]);
  (1010146860452265500, [0x4ead8e44]);
  (1010787888288357400, [0x52a362d3]);
  (1011109949758361600, [0x51e1]);
  (1011433051816506400, [0x674e6cca811381bf8ae78c10]);
  (1012408669311042800, [0x54b8]);
  (1012736001845539700, [0x6da66f64]);
  (1013064409365658700, [0x7266729b7bc7]);
  (1013393898955343900, [0x536276e77caa7cde]);
  (1013724477768793800, [0x5170862d]);
  (1014056153031393300, [0x54036d25]);
  (1014388932040660800, [0x674f7a9f]);
  (1014722822167212300, [0x756a77e97dbf7ef5]);
  (1015057830855740300, [0x5ced]);
  (1015393965626010900, [0x514751f6]);
  (1015731234073874800, [0x622a72fc]);
  (1016069643872298800, [0x6beb96c5]);
  (1016409202772412700, [0x56099ebe]);
  (1016749918604574200, [0x9808987b]);
  (1017091799279452700, [0x66746df56e0a817f]);
  (1017434852789131700, [0x5deb85fb]);
  (1017779087208228900, [0x6d466f3f93109525]);
  (1018124510695037600, [0x62ab73727da27ef883b799d99a78]);
  (1018471131492686300, [0x4f114fa850d15df166d9]);
  (1018818957930318800, [0x626d]);
  (1019167998424295600, [0x5e3788d9]);
  (1019518261479415800, [0x7262]);
  (1019869755690160300, [0x79bd]);
  (1020222489741957000, [0x842487a28d8a]);
  (1020576472412469500, [0x9f4a9f50]);
  (1020931712572906300, [0x54c85ba15be9632b95a39601]);
  (1021288219189356000, [0x8a988bf1]);
  (1021646001324144300, [0x5b5f740996fe9727]);
  (1022005068137217200, [0x51f3907f]);
  (1022727092934565900, [0x758f]);
  (1023090069739623700, [0x6c6a7ff0]);
  (1023454368867473900, [0x62f16e176ef270db71ed7275727d99dd9a7c]);
  (1023819999987784800, [0x5e8661766ca5701d905990659760]);
  (1024186972876681200, [0x56695806626c63da7f9a97099ef4]);
  (1024555297418310800, [0x4e265e766d74]);
  (1024924983606443400, [0x5f255f4c5fad67a368d7]);
  (1025668481455195100, [0x58215bdd5be26162722c]);
  (1026042313666255800, [0x5f0f7315737c9a199a97]);
  (1026794196907658700, [0x87188f1d8f89]);
  (1027551776288504500, [0x708a874c8d0a8d5e]);
  (1027932729130171200, [0x541e5b8b5fe761827b1b9f20]);
  (1028315138774011600, [0x5323598365bd66ff68ad809b812b8131871787789bca9ca8]);
  (1028699016404728000, [0x8c4c]);
  (1029471221014119000, [0x69a86d4b6e2c82af971c9f9c9f9f]);
  (1029859571016759000, [0x5ec9]);
  (1030249435058324500, [0x4ed58517]);
  (1031033752804427200, [0x544a739b746a7fe1]);
  (1032221885593102500, [0x6e836f70]);
  (1032621087720056300, [0x5ef666ae68a86caa6eec77e27d5e7ede7f5a7f7083f1966498fe9970]);
  (1033021889859810100, [0x4f1f504959625df7818f8caa8d2a96409bc99ca4]);
  (1033424304889782700, [0x55c5626964f46eda6efe761f7ffc8212]);
  (1033828345843483200, [0x6f2b80968a738be692f8952f9d3f9e3d]);
  (1034641358451808200, [0x9d3b9e3f]);
  (1035050356976960700, [0x82d489ba89c9]);
  (1036287486157215400, [0x6dfb70ad9177]);
  (1036703287172081600, [0x5e015e638354]);
  (1037120824313129800, [0x979197c3]);
  (1037540112139133400, [0x55bd560d76fe884d]);
  (1037961165392767700, [0x5915]);
  (1038383999003719900, [0x8759]);
  (1038808628091865000, [0x4f346de4777e789779d2]);
  (1039235067970510700, [0x60ca62cd9a5a]);
  (1039663334149710700, [0x6b226b6170f7]);
  (1040093442339649800, [0x7e8c7eed]);
  (1040525408454101500, [0x4eca502d5f2f5f4e67e06ab879be7dbd7ef091d89489]);
  (1040959248613961400, [0x5ddd7626]);
  (1041394979150857000, [0x6f208fab8fae924094be]);
  (1041832616610836800, [0x5239524e60656bb5803b95f99b27]);
  (1042272177758140600, [0x5eb66d4a6fc18da3]);
  (1042713679579052200, [0x7a749171918991ac959895f8]);
  (1043157139285838800, [0x65a78aed8c15]);
  (1043602574320776800, [0x7bc6]);
  (1044050002360269000, [0x95b19605]);
  (1044499441319052800, [0x575a58055e787f9f7fa5]);
  (1045404424871044700, [0x889c896a]);
  (1045860006524630700, [0x722a7ffb]);
  (1046317673227372000, [0x7280]);
  (1046777444152234800, [0x7de97f13]);
  (1047239338737864300, [0x4ea177db918b]);
  (1047703376693514500, [0x68da8888]);
  (1048169578004095600, [0x4ec05de76a1f7a8d7ac57d337ec5]);
  (1048637962935338300, [0x63117095964c]);
  (1049108552039079500, [0x81b3]);
  (1049581366158674300, [0x4e308c50]);
  (1050056426434534000, [0x7b3c7c60]);
  (1050533754309799800, [0x55077f3084b2923494c397c1]);
  (1051013371536149000, [0x7ad68c4e]);
  (1051495300179743900, [0x4e5e]);
  (1051979562627322700, [0x52569214949e9e1a9e66]);
  (1052466181592440000, [0x645870767684888b8ce48d31]);
  (1052955180121859200, [0x68f16a80842885a996619776]);
  (1053446581602102000, [0x5f5768136a59]);
  (1053940409766160400, [0x673469776a38814a81d8]);
  (1054436688700373300, [0x4ff8]);
  (1054935442851477100, [0x509167708292]);
  (1055436697033831600, [0x85378594]);
  (1055940476436827200, [0x644664fa846c8b0e8c1c]);
  (1056446806632482000, [0x5ae65f0469d09739]);
  (1056955713583229000, [0x514b63559a629a74]);
  (1057467223649906200, [0x53d9655882c78466]);
  (1057981363599948000, [0x5433543467de7cca7f427f4c]);
  (1058498160615792300, [0x5f7c92b39510]);
  (1059017642303502700, [0x5ba05bf564929811987d]);
  (1059539836701617900, [0x51f95ae967496b62]);
  (1060064772290232100, [0x9ecf]);
  (1060592478000316600, [0x6db570fd]);
  (1061122983223285800, [0x54105f2662846e4d]);
  (1061656317820822000, [0x51925c6080ed9170]);
  (1062192512134960700, [0x87578c79]);
  (1062731596998448300, [0x542f555f680868e792d2950b]);
  (1063273603745382300, [0x6b7981c293969501]);
  (1063818564222138700, [0x4e8f66fe70927cbd8667]);
  (1064917476379698300, [0x51ef51f162926b7c6bb270d999ff9a8f9d5d9e45]);
  (1065471494417259800, [0x604b62008a938fd8908492239499]);
  (1066028598922205400, [0x6276745e7737]);
  (1067152206248897900, [0x6bb76d1b87fe91c9]);
  (1067718780002465600, [0x67ff95bb960e]);
  (1068288582113929400, [0x62c77e617ee38fdd9055]);
  (1068861649584828000, [0x50216e106f3883098ddf934d9540]);
  (1069438020056503000, [0x59e5742581678346834a]);
  (1070017731824935600, [0x6deb9e9d]);
  (1070600823856014800, [0x656c]);
  (1071187335801254600, [0x611a6c1f781284b485af8a3a8bca]);
  (1071777308013973400, [0x4ece54395b8c5f9e9774]);
  (1072370781565955000, [0x79e77a79]);
  (1072967798264605400, [0x54ee9df99e70]);
  (1073568400670626500, [0x62b172f173447d1b7eb7]);
  (1074172632116222700, [0x6377685068867cef835e854e9b42]);
  (1074780536723861000, [0x54a86ee46ffe8aee8f458f959175]);
  (1075392159425604500, [0x9375952e]);
  (1076007545983042500, [0x8b0a8c0e]);
  (1076626743007834500, [0x523065c16b3d94a697ed]);
  (1077249797982898200, [0x5d1670ef76ca77b3]);
  (1077876759284257700, [0x62bc832f]);
  (1078507676203584300, [0x4fc3745c]);
  (1079142598971450000, [0x4f0a6ccc6e5870c2721b7fa7]);
  (1079781578781327000, [0x552255e967cf8304847185258f1c8f8e95b99609]);
  (1080424667814356200, [0x5320549286e4]);
  (1081071919264917900, [0x58d559fb806a8070]);
  (1081723387367037300, [0x58f3636e64da6bbc76d48b5c8c318e0f]);
  (1082379127421653200, [0x508059388a878d0f8d62]);
  (1083039195824788300, [0x5eca626369df6ab377ee]);
  (1083703650096655300, [0x4e5665cc67b8696072ac82bd90c19905997c9b31]);
  (1084372548911734800, [0x51f854215f205f35629182a591ca91cb]);
  (1085045952129869400, [0x62ec68a7759f7627]);
  (1085723920828407300, [0x808b85e98afe8bfa9b44]);
  (1086406517335447200, [0x5a4a636263db6d8c6e6798399893]);
  (1087093805264223400, [0x62d7753176968b2c8c2c]);
  (1087785849548680900, [0x68176b20776b80a4819a]);
  (1088482716480290200, [0x9e92]);
  (1089184473746154900, [0x51a56f15888d]);
  (1089891190468464000, [0x4e7e64ad752c990c9975]);
  (1090602937245350500, [0x6ede6eef86af]);
  (1091319786193211700, [0x574a676d8ac78c08]);
  (1092041810990560400, [0x52d260b667f56805867e876695f7]);
  (1092769086923468300, [0x63a965f766e0686669866a3a6be16c087e097f1999c19a73]);
  (1093501690932675700, [0x4e384f5054c055dc6101632164cb82ce82e786ee874e880d883b923e94c0]);
  (1094239701662437800, [0x6714]);
  (1094983199511189700, [0x900a905c]);
  (1095732266684105500, [0x578458df627366f4]);
  (1096486987247643800, [0x935b953b]);
  (1097247447186165700, [0x52ab958995ed]);
  (1098013734460722500, [0x6ca76ec475f482ac]);
  (1098785939070113600, [0x4e52637b873b]);
  (1099564153114319000, [0x525d52658d138d43]);
  (1100348470860421700, [0x5c94733f766b7672810693a794e0]);
  (1101138988811133000, [0x4eff4f6954627bdd]);
  (1101935805776050800, [0x56ca711a8155867187258768927493339451953099e29a88]);
  (1102739022945777200, [0x7fe0878398719885]);
  (1103548743969039000, [0x5b245b376096690e746474769ab7]);
  (1104365075032955300, [0x532a53e6685484758822]);
  (1105188124946606700, [0x5384585e8afa8c1a]);
  (1106018005228076200, [0x625162fc64b2668266ab6f2987cb9f3e]);
  (1106854830195128000, [0x54ac8222]);
  (1107698717059714400, [0x629b62cb6b67]);
  (1108549786026505200, [0x4e325428567857df8154]);
  (1109408160395644300, [0x5b815be7629368b36b4979bf79c37dde7f0e89028a6d8be1]);
  (1110273966669955700, [0x5ae16a84942e9570]);
  (1111147334666831200, [0x5de262b9727a72a77e5e7ed57fb08c6b]);
  (1112028397635046800, [0x50da620e6cfc6f51757f76827b527df47ec3971e]);
  (1112917292376771300, [0x5ac1655593a294a895a59600]);
  (1113814159375047400, [0x531561487c3f8ca98d29992199859c3b9cd7]);
  (1114719142927039300, [0x50cf533e61d261f6789f]);
  (1115632391283366500, [0x4ef26c41]);
  (1116554056793858900, [0x63ed6a587f9e81f3881596b696b8]);
  (1117484296060090200, [0x6bc579c97cd5]);
  (1118423270095074000, [0x68456bc06bc179017e9c7f06804b807e8a348bc9]);
  (1119371144490528500, [0x535c632563ee843c86db]);
  (1120328089592143600, [0x62dc9913997f]);
  (1121294280683317300, [0x4ee5828d82b982de9b139b22]);
  (1122269898177853700, [0x6a716ae5787c90039713]);
  (1123255127822155000, [0x5ef76d8975a47b5b7be981658679926494a99cf49e239ece]);
  (1124250160907471700, [0x6b4772f8816e822c8700]);
  (1125255194492821800, [0x85689b41]);
  (1126270431639223600, [0x592f633d69546da46ecc827382778b588bc69647969896b4]);
  (1127296081655942600, [0x5dc55dd462e564c181fc93df94f2]);
  (1128332360359497200, [0x52435728631a6350642a646f65726b8a6c5e788978be805898b698d3]);
  (1129379490346226700, [0x599e5c31713075b176b07b0b7b4d7e437ef78776]);
  (1130437701279280400, [0x9be49cb2]);
  (1131507230190955200, [0x57ab588a58e45bdf73227c2a9432956f]);
  (1132588321801376800, [0x586b6566849c8b028c13]);
  (1133681228854595900, [0x52285a3c61ff7a9880989686]);
  (1134786212473254400, [0x69fd72817c4d7cb382b8]);
  (1135903542533066900, [0x518d60f0630e67877f948b968c36925794b3]);
  (1137033498058460200, [0x5ad45b2a67ab695370e971f473d97f7587d19853989b9a82]);
  (1138176367640822500, [0x4ed85b5175e286d48c829093912792e49504]);
  (1139332449880930100, [0x52fa53e06c426cfb7009758a93189524]);
  (1140502053857249200, [0x53ca60e961f2642d79808c418d088d609ab0]);
  (1141685499621949500, [0x4e0e5212523d5283528a62a264368207981c988c]);
  (1142883118726621000, [0x57a658be5b9c5e4c60627bf17c6c821f980c9882]);
  (1144095254779855600, [0x4f0e5176572965998ecb8f67916c]);
  (1145322264039037000, [0x541755ce5e1b627e6d696fa17b4f92b99508970d]);
  (1146564516038892700, [0x522e620a654f6cdb73297898868187fb]);
  (1147822394259578600, [0x574e641c68327c387d617edc9645969b993e998f]);
  (1149096296837321600, [0x575b58c762f7643a651c67b768416c5d75ae7621780d814b8cc08d3a]);
  (1150386637320912400, [0x4f5a64b0869c916591e393b39493954d9bfd9c239ca59cab]);
  (1151693845477647700, [0x5f2975657d5b7ee68a6c8bdf96c09c789c88]);
  (1153018368152649800, [0x515c53ec699574e27827868c9a439aa0]);
  (1154360670185864000, [0x4f5d5146538953b262e665146f8e7b3a7b8b7ca47cb587b387e08c9e8d1e958f95f09d6a9e4c]);
  (1155721235391441800, [0x55445760589c64e66c926ca173b37d797ee2808787f98a0a8baf9c779cc4]);
  (1157100567604675200, [0x6cfd6fa4773878fa90ca9a559a84]);
  (1158499191802149200, [0x4f7c4f8f62c66e2370f997dc97ec9be89cb8]);
  (1159917655301345000, [0x65e267da74e375b2811081cd87d289258d168d4e904d90a6921e927b94a794ec987498a7]);
  (1161356529046555000, [0x4faf672d682a699b6c796d3690389db49e64]);
  (1162816408988670200, [0x543c6bef6c83710a7d817ed180de8244895f8df78e7a929194e3991b9984]);
  (1164297917567184200, [0x523759495a075b0c660f68d86c306cf5781d7e6d82dc832786b09562]);
  (1165801705303638300, [0x582f594e5c27629a62d864ab6f0273d0743a74557a3d8caf8d2e900195be9608]);
  (1167328452516717000, [0x58a9606d68a29d159e35]);
  (1168878871170313600, [0x566c5bf85eb8735075e47f3d86d994b5]);
  (1170453706867127500, [0x533953c9567159846248658b7284741074637dcb7eef7fce830e839684d69943998d9f4b]);
  (1172053741001771600, [0x4fda52726f6d7f697f817f88841886df920994a0]);
  (1173679793088949600, [0x567b62df64ec7f38877c87bb8a958bde98fd9971]);
  (1175332723284070700, [0x507f511f544b79417a578877964b]);
  (1177013435115709000, [0x8b1d8c22]);
  (1178722878451638900, [0x54265d2963886ba16baf6c7e6eb47cdf7d2f838e8a0e8ba88efc8f768f9b9911997d9b919c329c8d9ccc]);
  (1180462052722825700, [0x4e3d51ff52b152f557ad57e170c370f4747075de82358ae18c25947f9b239e97]);
  (1182232010432765900, [0x61706a35781a786f7a1a81a883b1840a88f88ddb9a4d9a81]);
  (1184033860983033800, [0x4fa04fe0576f6d3d731e89218cf48d56]);
  (1185868774849853400, [0x59dc5f7964796ec5706d7837894195a995fd9a5f9aa4]);
  (1187737988151068600, [0x4eab556e56d358585986599d665266ec6d9d6f8772cd73607622765e7669819c]);
  (1189642807648138100, [0x5218528954365450562766916b3a6dd179f87bd37c0d80af82e586c08b6b8c3597989e8b]);
  (1191584616233848200, [0x518a518c5cac5fcd681668f27ce081ca8b928c178fd990199047]);
  (1193564878963466200, [0x4e434f3d560c6b6a6b896cf3743c74ca753e7ba97c6e80068a2a8bbf8eba8ed28f699a579a8c9ee0]);
  (1195585149695218200, [0x7c7d833883ab858f85d586fe926c94bc96c1]);
  (1197647078415491800, [0x5a9a5d3d6cc46d29776679e47b2484bf86ed]);
  (1199752419335275000, [0x54aa6405652a84d19251932894c2951a9b779b8e9c7f9c87]);
  (1201903039857371300, [0x59ae5f186014675f68497638795d8378866c866f86c6874987ec9d079e28]);
  (1204100930529248900, [0x528863cf6d9f6dbf6e7e6f237063718472d9797f79847b28835a83a286a9876e8cc48d3f8d6d]);
  (1206348216114454700, [0x53536167632a6c196c4a707c7f728000836484779080915a9d539e41]);
  (1208647167936924700, [0x4ef050fb5432579b67fd6a89715e71e5828b8368854185ff8a1b8a238a508bb98bc08bc88d058d588fd495cc9611986b; 0x98a49a379a9a9f729f8b]);
  (1211000217677944000, [0x51775197572d57695a625e905eec6dd871e77d157d397eb07ecd82a188708aa58af78bbd8bf08c7a8cbd8d3b]);
  (1213409972835850000, [0x4f3852ff548f55b959195bf066f36d4f6d78700f75d478d0795b7cd9845b877e881188d88a60916e917f91c0]);
  (1215879234094887300, [0x53735b7d602f684e6ec7714e8fce935894e19bad9c91]);
  (1218411014893316100, [0x5954686869f36e4472ed72f9732e737b75fc780c79fd7a627a837aca814c82db918392ae947e97a3]);
  (1221008563533642300, [0x609f66206934805e8247832d83df840e88618c4795fb]);
  (1223675388241858500, [0x553f6490649165e666fc693f78a383b4843586d092ef95069909995599779b03]);
  (1226415285660669800, [0x60e761fc72927d6e7fd87ff983348a038ba38f468f618f948f989042906e90b596c996f999b19a6e]);
  (1229232373357339500, [0x51aa5e425f036320649365ec68c46c246cd470e6716977f87d467eca9c489cd5]);
  (1232131127044664600, [0x52df5475579258d85c24602179c87bb47c7c92c794a197309873989e9ad39dfa9e6d]);
  (1235116423359632900, [0x4fca54486084649e64c06d596d8e6d9572fb781778687c9f8adc8c0d8dd78fb0]);
  (1238193589226308200, [0x502650b256765811587959af5ad65d075de961e663a06c066d016f54718f76567b507b9c8db5978f97d397e998c498d8]);
  (1241368459057766100, [0x4e984e9952a152d9533f5f1b608d642c650065a465ee723b788c831c839c927894f09dc29e5e9f4f9f51]);
  (1244647441340065300, [0x4ff364c266a2754575f177eb77ef7b197dd97f02836083a884ba853a85ba85fa8709918792159320938294ae952d9541]);
  (1248037596507633400, [0x4f604fef54065e055e255f0b5faa625262ee6d32745975e876468036819b823782ab9be19cb1]);
  (1251546728488760400, [0x50a35201531d5b7a5cfb6800683d686b689476348083808580eb811b879f9621993f998a9cf69e159e229e2c9f2c]);
  (1255183492905848000, [0x50ee54ab56bc57c36398695e760076fc7aa080fc84bd8d178d5d8dbe95d695ef9655965d9ab89aed]);
  (1258957525704132700, [0x538c53ad58f658fa5c0960bc624962ac680b689768b568df6c0d6c266c4071a875a57e457f2b804a80b284c788ad8972; 0x8ae28be89017941095639be79cb39d069e299f0e]);
  (1262879597019460800, [0x517c52d85420559d6ca66d9b6dea6dee6ee56fe46feb701a72d279eb7b9480b4814883d688e888f993dc95579753975a; 0x991a]);
  (1266961796471486300, [0x514c5151557c5bb5626e65ed69f26a0a6dae7c278270827183bd9acb9ad69c399ca39ea99eb8]);
  (1271217757913365900, [0x4fcf502967ad67b3689f6bd76d6373ba74bd75387aff7b38901092a893ca947294f5957699a89c589c9f]);
  (1275662934170449200, [0x50775203535254b36881693d7bfe7f8c833587238c5a900d985b98a09c549cdd9d1f9e319f5f9f83]);
  (1280314935733938600, [0x53e9557855a7562f5a045a4163b764f26cab763079627a4e7aa87d087ea8816082cb83a7841c854986548cb68cc18d2c; 0x8d328f2f8f918fbd8fea901d9063907c90a39192925a94c696999813987f98969c319c569ca29cdc9d729e4a9e82]);
  (1285193952150881800, [0x4ef64f5e51fb529d52f8582a5b755f6464ca723d75c876247670832c836b83f28513852d8ab98bfd9012905e9477954a; 0x9d2f9d5c9e389e48]);
  (1290323281589636800, [0x55f3566f587e5a085b4c602063396bc26d93709671c975f07b0a7d737e1e7edb7f1f8038807380c181058a1f8a728bbc; 0x8be58d668f038f428f838fdf9072919b9bf09cb6]);
  (1295730003716664300, [0x5048525454cc54d455f65618565357685b6c5ce8660c6b596d2e748e74d475c975d976437aa67ac77ce87fb680f48182; 0x81bb82d1851a874887c889128db88dc68dea8e898ef28f719122917692c5950c9704995e998b9f349f39]);
  (1301445845100659100, [0x518059d85c145def5df062e864a565566649664b6c827172723e726f728a72a275b3765478b07a3c7e1b7e937f1a7f28; 0x8331840d8427856d86de8fc5940394d995ad95fe9bea9cae9f2f]);
  (1307508307282302700, [0x4ed44f09530d56f95df25e965f085f7b5f905fb960686094624e63ae64ce67356cb1759d76f979c67a08815386f287ef; 0x8a918bf38cfa8d5a8fe68ff0916f9c499cd6]);
  (1313962159396059800, [0x5415541d54355442558059375a7a5fd86363641765a5661966c768f56d4e6fdf7e0a7f22801982688e1d916a91ec92bc; 0x946d948e950995679aef]);
  (1320861446544755000, [0x4f6550a950c9513a54535617564e566456c85a755b0b5c1d5e9a5eb561206124614d61a4627064ac64ae64fe681d6869; 0x69ab6a016e0d6f2c717d749e74e47dac7ef681718431865e867c9051918d96429830988a98f499749acc9ad59b4d9b4f; 0x9b819c859ed4]);
  (1328272243760127200, [0x4f10524a54c45bfb5c0b6233662d68616a48728d75d87618763a782c7bf77ccc7dbe7eeb84d387038acd8b598be48c2f; 0x9226944c949b95549bdb9cb79e1e9e3e]);
  (1336276514527480900, [0x4ef554825fcf61cb61fa620d62c262d9671569946b236eba6ec170d8729f72b0736c75f975fa80b182eb83bc84cd84f4; 0x86f488108cab8d0d8d2f8d61902e91aa95bc960f975b99ed9a87]);
  (1344977652226443800, [0x4ea94fae539853a9554a571c5a255d4c655e663566b1679e6a056abe6c816ed5751a755d75b576b47741775c7a208012; 0x80ef82d8833c86f186fa871a8e228e818fed9102926d94bd9c529cdf9edd9f229f619f84]);
  (1354508670206876400, [0x4f225140537953ea5e876015606462ce657766dd680e690b6a5b6a816aa96adf6bcf6c8875b9797779b17b5a7be67bf3; 0x82a887ab8813883989f18b198c268d758d998dc38e8d921194a399df9a779ecd9edb]);
  (1365044721772658900, [0x5043548654fc555c55c956df59925c4e6059612761be63b864a365c366a766d667e56c166d12705170ab71ce72f47529; 0x754f75e675ff763e766e76e576ea7a847ccd7ddd7e8f7f097f208233829c83618386856a86b18747880588818aa38bec; 0x8dcb911991b4920d93a6949d954f9b6f9c81]);
  (1376823025338297200, [0x4f464f97514151cc520d52c3531957e059c65b5c5ea05fcc5fd962f463ba647b67ec6864686769bf6a906a9c6bfd6da9; 0x6ebd6f80731d73877433755b75a377517784778c77bc77ec7c377fb97fc1816d82bb82c184ef85118572859c8604863c; 0x86cf87bd87ca87f688548a898b7d8c898cb38cd18d1b8d308d488d638e6c8e728e7490b89210929c932e94a4952297a0; 0x984e989a9c099cc7]);
  (1390176164600749500, [0x4ebf50a7510451105494552755dd58075b6a5b7f5c465c4a5dfe62e9633a64c7651265226717689368e0695d69666978; 0x69a769bb760a762a765f7693772977ad78c57a177b477bab7c2b7db87e107eb67ec97faf839887af8e4a9050916392bb; 0x93ac9511955099939ab69c259ccf]);
  (1405591232583475400, [0x4ec453a653f95427543b56065764591459a55c495c5c5cb15ec862166413691269796d476df96f86709472e174877525; 0x7596766478b47dd27e887eea7f2c7f4580f1817e82d583e185a4865086fb8715873e8fa893f594e795ac96069a309bff; 0x9cca9dd79e25]);
  (1423823388262870700, [0x4f894fd154d25660568e577758925e54607361a861c762d4632464e0652e665366c966f9675e684069896af86cae6ed4; 0x6f58701b717874e075b07aa57aba7d8f7dec7e327ee57f057f27812f821c8236848b84ec85238543869d86b687708814; 0x88c689608c948e3a914a91f993e2949595569bab9c9b9ed8]);
  (1446137743394291800, [0x4e865188536653ed568f584c59485ad85b095ca15f885fc661b66346635e641e6488677569c16a3d6f2a70eb71d9725d; 0x75c476c5784778b278d57b067b957cdc821b83c183c784768579857a85e0876487728aa68aeb8b958bf58c0f8c308d9f; 0x8dd68e608e6690e7911692a592c394f1951295d49616971697f699d29a0d9a0f9a799a909a929b519cd99dd99e37]);
  (1474905950639470000, [0x4ea24faa5115519551b55220522a536f5431549d556655e3565d576a57c2594b596e5a115a555bc55d695e0f5e436155; 0x6266634d63e1646764b864fc655d66436666684468836c296c2c6c556cc16cd76ce36e9c6ec270bb7199737e74ef750c; 0x755a775b77ac782d78d97b9d7e737f347f627f7780048035803f81c68297835083dd848285598564857e858c85a685d3; 0x861a87a887ce88b789448b3e8b938ba98c298e7c8f258f8a8fc2904191e9923792e69319933e93e8949294b495149531; 0x9761994b99889a4a9a859ac29ad19c3e9cd4]);
  (1515452461450286300, [0x4e104f0d4f254fa34fb65000517952fb530054a7550155675598561657cb583559e35a495b405c825f7362fe6402645f; 0x647a672668e36a176a2f6aa36c866ca96dc56e886f336f727116711971dc760c762b767177bb77fe781f7823792c7940; 0x796579d57b727b8d7db47dc47ef27f007fe9808480ec819881cc81e78234823e82a482df8302833283aa83b383fd8494; 0x84fc850a861887128a6e8be08c488cd28d4a8f9f90af91f5931b93e49497951b954295e29701973d98e899169957997e; 0x99ad9a6d9d1d9de69def9e329e699e6a9eff9f0b9f599f85]);
  (1584767179506280900, [0x501a527d5416542955655632575e5830586258ec598d5bc75d265e9e5f5d5fff621a62bf645464d26655667e6688674c; 0x67c46860690f6a916c186c5b6dd66e0e6f316fd27006701573c0745a75117566772077bf783a783b78407852790e792a; 0x79317a1e7a807ae37bac7c077f617f79801880bd80e5817b81a9820082b482d382e382e483a084048680868d86f98755; 0x87ea883c8a628a8a8b048be28c498c688dec8e29960796ce972a9812988198c698d999339936993a99679989998e99d1; 0x9a7d9df89e6c9f90])
].
(** prob_emit.go:13772-13772 probEmit, state 126 *)
Definition emit_126 : list (Z * list Z) := [].
(** prob_emit.go:13773-14942 probEmit, state 127 *)
Definition emit_127 : list (Z * list Z) := [
  (333379865569639430, [0x674e]);
  (349342226845326960, [0x738b]);
  (369694409732033600, [0x5f205f35]);
  (396264513936777000, [0x52185289]);
  (413590997304396000, [0x96489673]);
  (423448329366829150, [0x54335434]);
  (427353010889921500, [0x6768694a]);
  (431679306193647100, [0x99ac9a6c]);
  (437790577379818100, [0x5b8b]);
  (441817702892685100, [0x9ec39ec4]);
  (448625171892238500, [0x91d1]);
  (450601993080734000, [0x5b595b6b]);
  (464149642208433600, [0x8d758d99]);
  (467509048732922300, [0x963f]);
  (474210891470361150, [0x54689031]);
  (474294271130555900, [0x767d]);
  (477214289580613700, [0x80e1]);
  (478221347436973300, [0x7f577f85]);
  (481439137726286400, [0x5c0f]);
  (483186433271679600, [0x6731]);
  (483918478633216400, [0x5510]);
  (485461004976191400, [0x5f90]);
  (490285629224265750, [0x66f9]);
  (491797821090613050, [0x8cc88d3e]);
  (494483447419405200, [0x5b9d5bf6]);
  (497804402896196900, [0x90ed]);
  (498758642333503700, [0x9ad8]);
  (509448694995883700, [0x79e6]);
  (512538828508301150, [0x6797]);
  (519151763684712100, [0x51af99ae]);
  (523649405061119700, [0x897f]);
  (525372199479489000, [0x8001]);
  (526936738105810300, [0x4e8e]);
  (529149796895379700, [0x4e01]);
  (529825801401151600, [0x65af]);
  (530726160324351600, [0x9b4f]);
  (533225981128900500, [0x8881]);
  (535353720973629000, [0x660e]);
  (538210316144309600, [0x7530]);
  (539857099707124600, [0x590f]);
  (540017914536743200, [0x53f68449]);
  (540098419035925500, [0x6881]);
  (545645433411684400, [0x5b89]);
  (545872706236784650, [0x6b66]);
  (546328807369540900, [0x90d1912d]);
  (547247298327248200, [0x97d397e9]);
  (548670293153361300, [0x77f3]);
  (553371053799195500, [0x932294b1]);
  (554635917184171600, [0x5e03]);
  (555854111227518200, [0x5b54]);
  (556105842008656000, [0x676d]);
  (557597696371507300, [0x90939127]);
  (557629681019149300, [0x848b85238fea]);
  (557853860456511200, [0x548c]);
  (558078543587463200, [0x53f8]);
  (558368165672453500, [0x9b6f9c81]);
  (560814870661557500, [0x534e83ef]);
  (561643925318958500, [0x4e1c6771]);
  (562614319415281400, [0x725b]);
  (563255239133271600, [0x8463]);
  (563900293143850800, [0x96469678]);
  (565203019829228650, [0x82cf8607]);
  (565306593116581900, [0x7389]);
  (568536077000812600, [0x54155442]);
  (572391099803318500, [0x9867987e]);
  (573247556351102600, [0x536276e7]);
  (573472191413740000, [0x928094f6]);
  (574149140219264700, [0x53f2]);
  (574565098466959100, [0x7384]);
  (577058993301684300, [0x5df4]);
  (577799881853511000, [0x4f55]);
  (578664667117124000, [0x6c99]);
  (578941401826247850, [0x5b50]);
  (580779248201388700, [0x6d2a]);
  (582077967754069800, [0x51e49cf3]);
  (583476591951543800, [0x8b1d8c22]);
  (583766988338984300, [0x59655967]);
  (584685191785047300, [0x6587]);
  (584853047468605200, [0x65b9]);
  (585823724007559800, [0x675c]);
  (586333929195949400, [0x842885a9]);
  (586932477370253200, [0x5c71]);
  (587190098809430500, [0x5eb7]);
  (588097036574216600, [0x7d057ea2]);
  (588662624333828400, [0x8af88bf8]);
  (589671183639307300, [0x90a3]);
  (589715265632527200, [0x6bdb]);
  (591449798778704600, [0x96f7]);
  (591854384630659000, [0x5357]);
  (592260614031546900, [0x6167]);
  (592941351854349300, [0x517395dc]);
  (594965339989124000, [0x53e4]);
  (596227923981439700, [0x5de6]);
  (597126062847899300, [0x6c496f22]);
  (597602027573198200, [0x4efb]);
  (597649748881667600, [0x5e085e2b]);
  (597840862174428100, [0x6d77]);
  (599334505938928800, [0x516c]);
  (599480243151995750, [0x9e7f]);
  (601692178995328500, [0x5e73]);
  (602942507862109800, [0x5927]);
  (603244927447436400, [0x5409]);
  (605284773800390400, [0x7bc48303]);
  (606999546916468300, [0x5b97]);
  (607419715601838300, [0x4e4c70cf]);
  (608797585837454800, [0x4f0a]);
  (609064751371735200, [0x6885]);
  (609816634613137900, [0x8c9d8d1d]);
  (610194706897128500, [0x859b]);
  (610465636350309100, [0x5361]);
  (612826437728865900, [0x5317]);
  (613048907231077000, [0x5ba3]);
  (614225061926339850, [0x6613]);
  (614507149560503900, [0x5411]);
  (615016921267670800, [0x695a]);
  (615130557643535600, [0x5609]);
  (616331601534757740, [0x5c01]);
  (617082399170745400, [0x970d]);
  (617430831579006500, [0x6c5f]);
  (618131359837847400, [0x683c]);
  (619369218261111400, [0x6c88]);
  (619487912637064200, [0x4f2f]);
  (619606748064002100, [0x62c9]);
  (620023787691374700, [0x4faf]);
  (620562549844612650, [0x5f6d]);
  (620863121155962000, [0x84dd85cd]);
  (621527575427828800, [0x514b]);
  (623300779943723900, [0x9f8d9f99]);
  (623486022355447700, [0x6e296eab]);
  (624105987143400300, [0x5143]);
  (625609774879854400, [0x6210]);
  (627200645211513800, [0x5b5f]);
  (627779611125962200, [0x82b1]);
  (627844148075604600, [0x9ed1]);
  (627973347059984800, [0x52a0]);
  (628102713184106900, [0x7ae5]);
  (629471258492632300, [0x4e2556b4]);
  (629668302891362150, [0x827e]);
  (629865736321733900, [0x592a]);
  (630063560322944500, [0x5fb78096]);
  (630195660738455800, [0x6234]);
  (630991948953945200, [0x8521]);
  (631392483534812800, [0x54c859da]);
  (631727492223341000, [0x67f3]);
  (634794172062638200, [0x5229]);
  (635488619297919300, [0x7d22]);
  (636187922847016400, [0x83ab]);
  (636328372308306200, [0x8cbb8d39]);
  (636469019307581350, [0x6b276b50]);
  (636609864401287150, [0x5e84838a]);
  (638459134739310900, [0x60e0]);
  (639179598950815600, [0x798f]);
  (639687030267962500, [0x56fd570b]);
  (639905291540494300, [0x9f4a9f50]);
  (640051064161060000, [0x5929]);
  (640562948276950700, [0x4e9196f2]);
  (640930190702177100, [0x4e07842c]);
  (642786909469734500, [0x6c646e6f]);
  (642936947007258000, [0x66fe]);
  (643087209995711500, [0x8499]);
  (643917716845560000, [0x9ea59ea6]);
  (644755178915577100, [0x79d1]);
  (644831660754869200, [0x962e]);
  (646063393032627250, [0x6c6a]);
  (646762968369229900, [0x71d5]);
  (646841001927618000, [0x4e5455ac]);
  (646919096425925200, [0x90b5]);
  (647388948504080550, [0x6728]);
  (648335327807175600, [0x5bab5bae]);
  (650013353596830700, [0x8a318bb8]);
  (650174643954377200, [0x5b815be7666e]);
  (650741217707944900, [0x9633967d]);
  (650822419498846100, [0x535555ae]);
  (653539754249751950, [0x6c34]);
  (655904729338111300, [0x5e38]);
  (656935666303997400, [0x8036]);
  (657455147991707800, [0x7279]);
  (657628909981561900, [0x5170862d]);
  (657715904332415850, [0x5e7f5ee3]);
  (658941839125741200, [0x6f58]);
  (659029983688521700, [0x59dc]);
  (659206506240978650, [0x7d0d7eb3]);
  (659294884505679400, [0x535a]);
  (660719663727869600, [0x90dd]);
  (662895633533984350, [0x67436b0a]);
  (663816450353370600, [0x6cf08427856d]);
  (664001635591478000, [0x8fde9023]);
  (665307624302938900, [0x4e506a02]);
  (666061633530267700, [0x901a]);
  (666156285690670800, [0x5c3c]);
  (666630895029596400, [0x69ae8363]);
  (666821371277661700, [0x5c145c1a723e7a46]);
  (667394986617214200, [0x4f599918]);
  (667586925255794600, [0x6c5d]);
  (668455237513140700, [0x5e158c37]);
  (668552183715595500, [0x7a0b]);
  (668649223994923300, [0x5cb3]);
  (669624841489459750, [0x6cd5]);
  (670511110215244300, [0x5c2476db]);
  (670709130081930600, [0x9edb]);
  (670907542845435200, [0x9676]);
  (671405303952810400, [0x5e0c]);
  (672307565712774200, [0x8cc08d3a]);
  (672610137804427900, [0x8d6b]);
  (673319720102574800, [0x7ae0]);
  (673421501281844800, [0x718a]);
  (673727467864240400, [0x5e9e9f90]);
  (673931966913013200, [0x7c73]);
  (674034373475982200, [0x95bb960e]);
  (674960782571962000, [0x5085666f]);
  (675791524628947650, [0x4e9a4e9e]);
  (675895854320205400, [0x53cc96d9]);
  (676419141751871200, [0x57c3]);
  (677474003853945700, [0x536b885b]);
  (678219084469532250, [0x74e6]);
  (678647350648732300, [0x97cb97e6]);
  (679617708667006200, [0x805e95fb]);
  (679834628491760800, [0x8fbe9054]);
  (680052019881722700, [0x7531]);
  (681146122699543600, [0x611b7231]);
  (683034018859290500, [0x5bcc]);
  (684048112056895400, [0x4ece5f9e]);
  (684274869523673500, [0x4e39]);
  (684958243481530000, [0x8a79]);
  (685187076533331200, [0x76ae]);
  (686107681424103500, [0x5b986bb7]);
  (686687393192536100, [0x65bd84b2]);
  (686920222168495300, [0x6c83]);
  (687036840257513500, [0x6851]);
  (687621979434359900, [0x5546]);
  (687974713486156700, [0x6649664b]);
  (688092568538101200, [0x89e3]);
  (688446969381574100, [0x7dad7ef4]);
  (689997388035170600, [0x5de867e5]);
  (690117652631746650, [0x5e935eab]);
  (690238062038227100, [0x9f949f9a]);
  (690721154765193650, [0x984f989c]);
  (691816722631291200, [0x5c45]);
  (691939196620880700, [0x6258]);
  (694420713532853200, [0x943594c1]);
  (695304000032704000, [0x968b]);
  (695430823131503600, [0x7956]);
  (696195158062760400, [0x53059ece]);
  (699444306773546600, [0x6ee16eff]);
  (699708857192389000, [0x6bd4]);
  (700240066940878000, [0x4e7e4f0f]);
  (701176528633982250, [0x90b99112]);
  (701580569587682800, [0x9ebb]);
  (701850840022471300, [0x677e]);
  (702393582196007800, [0x79cb]);
  (702666061928626300, [0x7d007eaa]);
  (702802580721160300, [0x9999]);
  (703763466631823900, [0x539f96ea]);
  (704455510916281400, [0x7d2b]);
  (704733675212469000, [0x8a00]);
  (705432490075861900, [0x6ce2]);
  (705995079464078700, [0x70759748]);
  (706419108367967200, [0x5d14]);
  (706987291714710300, [0x7f8e]);
  (707129843413832500, [0x8b5a8c2d]);
  (707272598612951000, [0x58eb]);
  (707845666083849500, [0x9752]);
  (708133436066611000, [0x6148]);
  (709292869344702900, [0x5f17]);
  (709438748291068900, [0x4f8d]);
  (710171352300276200, [0x671b]);
  (710465903323251900, [0x517b990a]);
  (710613504826064000, [0x6bb5]);
  (710761324512995100, [0x516862087533]);
  (711206099152818700, [0x751f]);
  (711951814763626900, [0x4fe1]);
  (713308278667040800, [0x67ef]);
  (713917108553766200, [0x5de78def]);
  (714837360446882500, [0x7aa67ac7]);
  (715146002667201400, [0x67f4]);
  (715300681739031300, [0x51ef51f1]);
  (715610759506856100, [0x7ba1]);
  (716077686425224400, [0x5b87]);
  (716390186679537950, [0x8eca8f66]);
  (717018132228022300, [0x7518]);
  (717967506447247400, [0x9418949f]);
  (718126615470471600, [0x67cf]);
  (718285978053999400, [0x96349670]);
  (719408684313377700, [0x6842]);
  (720055935763939500, [0x5b63]);
  (720870936200131900, [0x82f19686]);
  (721692633510360000, [0x5217]);
  (721857786314207300, [0x6155]);
  (722687666595676900, [0x5ef6]);
  (723524491562728500, [0x6bcd]);
  (723692700181027000, [0x76f8]);
  (723861192217518900, [0x739b746a]);
  (724029968628890900, [0x4f0d]);
  (724707937327428700, [0x4fdd5854]);
  (725048653159590200, [0x623f]);
  (725219447394105800, [0x665366c9]);
  (726596405466481500, [0x51b7]);
  (726769866047702350, [0x9b919c8d]);
  (727292060445817500, [0x656c]);
  (727466732979311600, [0x58a876ca]);
  (727641711151690450, [0x9102]);
  (727816996034431900, [0x7acb]);
  (728521224296973200, [0x9b5a9c7c]);
  (728875206967485600, [0x51cc]);
  (729052669303322400, [0x5e1d]);
  (729586953744371950, [0x519c8fb290a2]);
  (729765684801781600, [0x4ee3845b]);
  (729944735879160300, [0x8f9b]);
  (730303802692233200, [0x66f2]);
  (730664163442563100, [0x4fee]);
  (731753103422489900, [0x4e16]);
  (731935751875093300, [0x52b352de90fd]);
  (732118734542801000, [0x5ed6]);
  (733223718161459500, [0x6d1b]);
  (734904429993097500, [0x4e18]);
  (735471003746665300, [0x5bb9600061f7]);
  (736805627941954700, [0x547c]);
  (737190243800702600, [0x76d684cb]);
  (737576344666448500, [0x98059879]);
  (737769955569135200, [0x4ec1]);
  (738939559545454300, [0x73ed]);
  (739332487359443300, [0x72c4]);
  (740123005310154600, [0x6853]);
  (741320624414826100, [0x6709]);
  (741723039444798700, [0x712682e5]);
  (744378966752034200, [0x585e]);
  (744793905106715300, [0x5bfb5c0b]);
  (745002021727097750, [0x90b1]);
  (745419558868145900, [0x5c09]);
  (745628983028457350, [0x4e0a]);
  (747533802525526800, [0x667a7a7a]);
  (748176891558555800, [0x5f188fb9908a]);
  (749475611111237000, [0x66257fc1]);
  (749912293027871000, [0x5225522b]);
  (750350890222196400, [0x53866b77]);
  (752124772655934600, [0x4e308c50]);
  (753023655112777900, [0x5353]);
  (754158741079646900, [0x4f545360]);
  (755306859317042440, [0x63a2]);
  (755538073292880400, [0x65f66642]);
  (755769823106916700, [0x58fd5bff]);
  (756234940224489800, [0x660c]);
  (757407286594095700, [0x745e]);
  (757643414212663700, [0x5c39]);
  (757880100713690300, [0x6bd57562]);
  (759072009937411350, [0x795e]);
  (759794034734760000, [0x8ca28d21]);
  (760035872821188200, [0x5bbf88f4]);
  (761009116513011300, [0x57fa9ce99e20]);
  (761745316157118200, [0x82d7]);
  (762239144321176450, [0x90ce]);
  (762486975922623200, [0x62186230]);
  (762735423255389400, [0x79cd7a2e8212]);
  (763484490428305100, [0x5e789053]);
  (763735431588847650, [0x84df858a]);
  (764239210991843400, [0x6cb3]);
  (764745541187498100, [0x6e05]);
  (765509876118754900, [0x88e191cc]);
  (765765958204922300, [0x62d3]);
  (766022697755446800, [0x5c48]);
  (767838571256634000, [0x5f13]);
  (768100694604621400, [0x5e725e79771f]);
  (768891212555332700, [0x8cf48d56]);
  (769156113372490400, [0x540e5f8c9759975c]);
  (769955052375838300, [0x6c388346834a]);
  (770222790152909900, [0x50916770]);
  (771030331553464400, [0x4f539ad4]);
  (771572338300398400, [0x6a0a]);
  (771844447311834400, [0x7d937ecf]);
  (772665245353617400, [0x4fde]);
  (772940348690806400, [0x627f]);
  (774327333477221400, [0x5730]);
  (775733826423961800, [0x664166fc]);
  (776302009770704900, [0x8863]);
  (777160384139844050, [0x96c5]);
  (777448154122605600, [0x62db]);
  (777736754611519000, [0x96e8]);
  (778316466379951600, [0x8340]);
  (780076042568989600, [0x80fd]);
  (780372339082055260, [0x6069]);
  (780967578934784800, [0x4f5f7267]);
  (781266532819621400, [0x795d7b807c21]);
  (781566383119247100, [0x5e9461c9]);
  (781867135225642600, [0x725f8d8a]);
  (782471366671238800, [0x958095e8]);
  (783384615027566200, [0x6e38904a]);
  (784925477562850650, [0x803f]);
  (785861521838807000, [0x51675185]);
  (787123368234728100, [0x7fe0]);
  (787441333526466100, [0x591a]);
  (787760313063276100, [0x5f375f3a]);
  (788723402369372300, [0x621a]);
  (789370653819934000, [0x4eca50a851325316601d]);
  (790349454456550300, [0x4e95535c]);
  (792002384651671300, [0x4f46]);
  (792336274778222800, [0x5ddd]);
  (792671283466751000, [0x8fc7904e]);
  (793344686684885400, [0x99f19a86]);
  (793683096483309500, [0x540c]);
  (794022655383423300, [0x865e]);
  (795048305400142200, [0x79b98a088ba1]);
  (796432410541329400, [0x5370]);
  (796781451035306200, [0x4f8667658305]);
  (797131714090426400, [0x65b0]);
  (797483208301170900, [0x7e8c7eed]);
  (797835942352967700, [0x5e055e25]);
  (798189925023480100, [0x64cd]);
  (798545165183916900, [0x4f695fc3]);
  (798901671800366500, [0x891a]);
  (799259453935154900, [0x4ef29808987b]);
  (799618520748227700, [0x5149]);
  (799978881498557650, [0x66b4]);
  (800340545545576500, [0x4e2d]);
  (800703522350634400, [0x4f26502b]);
  (802909494157107600, [0x652f]);
  (803281934066205800, [0x4e1b53e28584]);
  (804407649518669200, [0x88d8]);
  (805928591385022100, [0x65e57f8a]);
  (806312469015738700, [0x54b8]);
  (806697825947337700, [0x80428076]);
  (807084673625129800, [0x82cd84bc]);
  (807862887669335300, [0x85cf]);
  (808254277601448800, [0x6d66]);
  (809041683244539400, [0x63a191c7]);
  (810234540331066800, [0x5bd2]);
  (811037757500793300, [0x502a91ca91cb]);
  (811847478524055300, [0x5211]);
  (812663809587971300, [0x7941]);
  (813074487783236700, [0x58576d82]);
  (813900938768226000, [0x5de9978f]);
  (814316739783092400, [0x4e607fd2]);
  (815153564750144000, [0x96c1]);
  (815997451614730500, [0x90ac9114958695eb]);
  (817276786760721500, [0x4f9d]);
  (817706894950660500, [0x4ed876d876e4]);
  (818138861065112000, [0x5bb0]);
  (819008431761867500, [0x7da07eff]);
  (819446069221847400, [0x7cdc]);
  (819885630369151200, [0x82a6860690c19b31]);
  (820327132190062800, [0x697c6a13]);
  (821663454971279500, [0x5bc767346a38]);
  (822112893930063600, [0x518959996ed1]);
  (823473459135641400, [0x797f7984]);
  (823931125838382500, [0x878d]);
  (824852791348874900, [0x80e5]);
  (825316829304525300, [0x5bb6]);
  (826722004650090300, [0x6b65]);
  (827194818769684800, [0x626c63da]);
  (827669879045544700, [0x77bf83398afe8bfa]);
  (828626824147159600, [0x838e]);
  (829108752790754600, [0x5c91]);
  (830079634203450600, [0x78a7]);
  (831060034213112800, [0x515a9ee8]);
  (832548895462487900, [0x620e7504]);
  (833553929047838000, [0x65f766e09577957f]);
  (834569166194239800, [0x8cfd8d5b]);
  (835080676260916700, [0x5a045a41]);
  (835594816210958600, [0x7b26]);
  (836631094914513300, [0x5deb]);
  (838205930611327200, [0x5f526b786ed5]);
  (838736435834296600, [0x638c]);
  (839805964745971400, [0x6276]);
  (840345049609459000, [0x5b9b]);
  (840887056356392800, [0x4e3d884c9e97]);
  (841979963409611900, [0x995299769bae9c9c]);
  (842530928990708900, [0x7d427ec8]);
  (843084947028270400, [0x521d]);
  (844202277088082900, [0x4e0059225b645e7c68a6]);
  (845332232613476400, [0x4e09]);
  (845902034724940100, [0x52fe5ec9]);
  (847631184435946100, [0x8ac78c08]);
  (848214276467025400, [0x5c55]);
  (848800788412265200, [0x5de2]);
  (849390760624984200, [0x959495f5]);
  (849984234176965500, [0x8ed28f69]);
  (850581250875616000, [0x5bbe8cd3]);
  (851181853281637200, [0x4ec7]);
  (851786084727233500, [0x4f3d]);
  (852393989334871600, [0x6817]);
  (853005612036615300, [0x85e4]);
  (854240195618845100, [0x7c9f]);
  (854863250593908800, [0x55bb595a]);
  (855490211895268300, [0x96cd9756]);
  (856756051582460600, [0x51b0]);
  (857395031392337800, [0x65bc68ee]);
  (859336839978047900, [0x518065e07121]);
  (861986001522745600, [0x54e559ec]);
  (862659404740880000, [0x4e5d984d989d]);
  (863337373439417800, [0x533a5340]);
  (864019969946457800, [0x4ef0535e]);
  (865399302159691400, [0x6c606cfd6fa4886198db98de]);
  (866797926357165400, [0x5e2d663e8f9f95e2986f]);
  (867504643079474600, [0x4ed350095ba6672c76fc]);
  (868216389856361000, [0x84ec]);
  (870382539534479000, [0x542b]);
  (871853154273448500, [0x6298661f]);
  (872596652122200400, [0x51e1]);
  (873345719295116000, [0x5c60]);
  (874100439858654400, [0x82d1]);
  (874860899797176300, [0x7e467f2a]);
  (875627187071733300, [0x89c089c2]);
  (877177605725329800, [0x664f]);
  (877961923471432300, [0x6ea5]);
  (878752441422143700, [0x7fdf8f9c]);
  (880352475556787800, [0x7df47ec3]);
  (881162196580049800, [0x538953b2624881e7]);
  (881978527643965800, [0x5371675f6c72]);
  (882801577557617300, [0x5374537b537f]);
  (883631457839087000, [0x50195c11]);
  (884468282806138500, [0x8fce]);
  (886163238637515800, [0x5ebe6f069773]);
  (889641850246057300, [0x5321923494c3]);
  (892332595538049800, [0x5efa6b63]);
  (894167509404869400, [0x6556]);
  (896984597101539200, [0x5343]);
  (899883350788864400, [0x4e945b9c8a698bd7]);
  (900868580433165500, [0x690d]);
  (901863613518482400, [0x4eea510060dc]);
  (902868647103832500, [0x683e6b12]);
  (905945812970507800, [0x534a]);
  (909120682801965800, [0x4e8c]);
  (910201774412387400, [0x5b8c7b1b83b1840a]);
  (912399665084264900, [0x4f4d]);
  (914646950669470900, [0x51415201]);
  (915789820251833000, [0x7687]);
  (919298952232960000, [0x8fdc9060]);
  (921708707390866200, [0x53f09189]);
  (922935716650047600, [0x4ecb5e74]);
  (925435846870589400, [0x7fbd]);
  (926709749448332300, [0x58355d47614e]);
  (928000089931923000, [0x632f6e20]);
  (929307298088658300, [0x554f95ee]);
  (930631820763660400, [0x65fa80af]);
  (931974122796874500, [0x51ac51b56cc1]);
  (933334688002452300, [0x51dd97f6]);
  (934714020215686000, [0x8c46]);
  (936112644413160000, [0x5b93]);
  (937531107912355600, [0x7d507ed395d59619]);
  (938969981657565500, [0x4f8f6fb9]);
  (940429861599680800, [0x6708]);
  (941911370178195000, [0x597382ae]);
  (943415157914648900, [0x5fd7]);
  (944941905127727800, [0x542c6fee7c4d807d8a9e8bed]);
  (946492323781324400, [0x59826df3812b8131]);
  (948067159478138200, [0x6a80]);
  (949667193612782300, [0x521a525b]);
  (951293245699960400, [0x5ed3]);
  (954626887726719500, [0x6068679c7afa]);
  (958075505333836500, [0x9122]);
  (959845463043776400, [0x4ea66b628fdf9072]);
  (963482227460864000, [0x66026d456dfa]);
  (965351440762079300, [0x57235a015ffb77eb77ef8056921594ae]);
  (967256260259148700, [0x6bcb]);
  (969198068844858800, [0x851a]);
  (971178331574476800, [0x59516469]);
  (973198602306228700, [0x4f58]);
  (975260531026502300, [0x541090e69148]);
  (977365871946285700, [0x56fe5716]);
  (979516492468381900, [0x5ff56e5b]);
  (981714383140259500, [0x53cb8d64]);
  (983961668725465300, [0x5e7b89838c9e8d1e]);
  (986260620547935200, [0x7fe9]);
  (988613670288954600, [0x6749]);
  (991023425446860700, [0x5174624e7a3c8208]);
  (993492686705897800, [0x4ee45f26662082df]);
  (996024467504326900, [0x623662376d6e84af]);
  (998622016144652800, [0x52c36241673d]);
  (1001288840852869000, [0x72ec7368]);
  (1004028738271680500, [0x66a274067545]);
  (1006845825968350100, [0x8af68c0c95ad95de95fe961a]);
  (1015807041837318700, [0x4ea2591c909d913a]);
  (1022260893951076000, [0x607d60f291469b3c]);
  (1025651049118644100, [0x624d]);
  (1029160181099771000, [0x4e935fc661b67aef90b897a0]);
  (1032796945516858500, [0x4e4b75f4902f]);
  (1036570978315143200, [0x6db5]);
  (1040493049630471300, [0x50b25bc6]);
  (1044575249082496900, [0x52b152f568af8010817e9a30]);
  (1048831210524376400, [0x4e6666f8]);
  (1053276386781459800, [0x4e705706571372478cb7]);
  (1057928388344949200, [0x4e864edd4fca796579c07b2c9697]);
  (1062807404761892400, [0x4ee5]);
  (1067936734200647400, [0x571f57429d3b9e3f]);
  (1073343456327675000, [0x56db839890d796d29ed8]);
  (1079059297711669900, [0x4e1f4e2250e7649266a867517b11]);
  (1085121759893313300, [0x4e035bc46c9b800390b0]);
  (1091575612007070400, [0x68656a4b72d77fbf]);
  (1098474899155765500, [0x4ea84f5051bc538d53997d047da67ea6]);
  (1105885696371137800, [0x5b3463ed671d7199]);
  (1113889967138491400, [0x4e4862dc670d6d4e6fdf8cc18d32900491ce9ebc]);
  (1122591104837454300, [0x500d51885ca1611a743c74ca853a85fa8a3e]);
  (1132122122817886900, [0x4e5c540d545854e159ab5aaf66f4]);
  (1142658174383669600, [0x68506ee86ff17af9830283c583f2]);
  (1154436477949307800, [0x5cb85e86617666066a316afb7d307ec6899389c5920494ad]);
  (1167789617211760000, [0x5b5d6a2a6a6b]);
  (1183204685194486000, [0x4e454ef553c85eb962ff6cee82b7837790b490c790dc]);
  (1201436840873881500, [0x544854c163776e21767e8fdb9032]);
  (1223751196005302300, [0x520752dd541b5c9b5cf65ea7658b74a97d397ecd80dc89ba89c98a2a8bbf8fd8908497dc97ec98c498d89f4b]);
  (1252519403250480500, [0x4e0d5b886df56e0a6fd17028706b7469837b83b98605975e]);
  (1293065914061296900, [0x4e435251528d52aa57f95a135dcd5de55e015e635ef75fe0607065e96a586bb36d25753a7df17f11820d864e90c490cf; 0x90df9ce59e1f]);
  (1362380632117291400, [0x4e4951765578560e562f59c65e0263aa659b65ed661d6b4c70ed71b17b717dba7eee7fa9826f82928349867988e88d85; 0x9038904790a6])
].
(** prob_emit.go:14943-15299 probEmit, state 128 *)
Definition emit_128 : list (Z * list Z) := [
  (119206790181961760, [0x674e]);
  (254468786036427700, [0x5f205f35]);
  (335856972383163650, [0x738b]);
  (337434292150873060, [0x533a5340]);
  (341489998027435650, [0x52185289]);
  (341655698148198600, [0x91d1]);
  (358406345249080000, [0x90d1912d]);
  (386004948517938960, [0x96489673]);
  (389421838079463930, [0x65f66642]);
  (414172037594088900, [0x4e8e65bc]);
  (429302123907738800, [0x9ad8]);
  (430504543204418950, [0x5b595b6b6768694a]);
  (431314264227680900, [0x80e1]);
  (447136664749170300, [0x653e99ac9a6c]);
  (454035951897865400, [0x6797]);
  (458736556135458400, [0x97d397e9]);
  (463669062791708600, [0x5b815be7]);
  (464799018317102000, [0x4efb54689031]);
  (472472397740240900, [0x9ec39ec4]);
  (473087784297678750, [0x5eb7]);
  (475587914518220400, [0x5b8b]);
  (476861817095963400, [0x5b54]);
  (486264712060791000, [0x6c5f]);
  (489122049305196700, [0x8d758d99]);
  (489849325238104600, [0x7530]);
  (498219227125769300, [0x54335434]);
  (499819261260413400, [0x6731]);
  (502268363261243100, [0x5f90]);
  (509108635949683000, [0x984d989d]);
  (521330399222108000, [0x9b6f9c81]);
  (523350669953860000, [0x8fde9023]);
  (525412598674133500, [0x4f599918]);
  (530761467169232100, [0x8b1d8c22]);
  (531866450787890600, [0x8001]);
  (532983780847703150, [0x5c31]);
  (542402502353673300, [0x8c9e8d1e]);
  (544902632574215000, [0x5e84838a]);
  (550098606467286100, [0x6881]);
  (552801473706078000, [0x5de6]);
  (570760031403586000, [0x7bc48303]);
  (572412961598707100, [0x767d]);
  (574093673430345200, [0x7956]);
  (575803116766275200, [0x6587]);
  (581114099297670000, [0x6c38]);
  (586723045962774400, [0x6b276b50]);
  (588664854548484600, [0x534e83ef]);
  (590645117278102600, [0x9f8d9f99]);
  (592665388009854500, [0x8cc08d3a]);
  (598983278172007600, [0x5efa]);
  (601181168843885150, [0x4fdd82cf8607]);
  (603428454429091050, [0x80428076]);
  (610490211150486300, [0x541182b1]);
  (615491253207952500, [0x8499]);
  (618088801848278550, [0x66fe]);
  (623495523975306100, [0x67f3]);
  (632196661674269100, [0x66f9]);
  (638448697372402500, [0x517365b96c6a8a318bb895dc]);
  (641727679654701600, [0x4f55805e8a7995fb]);
  (645117834822269700, [0x90b99112932294b1]);
  (648626966803396800, [0x536253f859da76e777bf]);
  (652263731220484200, [0x8cc88d3e]);
  (656037764018768900, [0x675c676d79e67f577f859f4a9f50]);
  (659959835334097100, [0x8427856d]);
  (664042034786122600, [0x4e2556b465bd7fe6]);
  (672743172485085500, [0x5510]);
  (677395174048574860, [0x5b8984639867987e]);
  (682274190465518000, [0x4e1c677176db77f3]);
  (687403519904273100, [0x5bcc90939127]);
  (692810242031300700, [0x5e3866136d2a]);
  (698526083415295500, [0x4e6051af6f587fd2848b8523888199ae]);
  (704588545596939000, [0x53f684498584]);
  (711042397710696150, [0x50857965]);
  (717941684859391200, [0x62348b5a8c2d]);
  (725352482074763500, [0x90ed9577957f9676]);
  (733356752842117100, [0x59295b665b786c496f227a0b83ab90c19b31]);
  (742057890541080050, [0x4e5455ac5c1a6c646e6f7ae0827e]);
  (751588908521512500, [0x4e0167ef]);
  (762124960087295200, [0x5c555f655f665fd766fc76d684cb95bb960e]);
  (773903263652933600, [0x4e074e5953e4590f5c246210795d81e7842c]);
  (787256402915385800, [0x529b6d77865e]);
  (802671470898111600, [0x514951bc52195247538953b2660e6b66798f]);
  (820903626577507000, [0x59dc5e9461c965b06bd56c8875627acb845b89e3]);
  (843217981708928100, [0x4ee45305535c56de5c9168516bdb7a467b807c21852190e69148]);
  (871986188954106100, [0x4ecb4faf51cc520053f25b635c0f67346842697c69ae6a136a386bb57531809682d783058363842885a988f48af88bf8; 0x90b59418949f970d9b4f]);
  (912532699764922700, [0x4fde516d52015355535755ae5b505b5f5d145e865f6d6176621a68856d66706b725f75337ba1803f82f1884c8cbb8d39; 0x8f9b8fb9908a90fd97a09cf49e23]);
  (981847417820917200, [0x4ec74ee34f0d502a54c8592759ec5b575b585c115c395e2d5e735e9e5f3c5fb7607d60f2611b6208664f666f6811695a; 0x6a396ee16eff7231725b74347532768779417afa7d937ecf7f8a8087821282c78340846684dd85cd864e8cc78d448fdf; 0x907290dd943594c1962e9646967896ea97cb97e69805987999999ece9f909f949f9a])
].
(** prob_emit.go:15300-16351 probEmit, state 129 *)
Definition emit_129 : list (Z * list Z) := [
  (277672529942325760, [0x95d695ef]);
  (321196824202324100, [0x4e8c]);
  (340934509186804570, [0x4ee4]);
  (343575056691394600, [0x5d07]);
  (361599759970530150, [0x963f]);
  (402938496746917700, [0x591a]);
  (409977329619474800, [0x62c9]);
  (438616321185735800, [0x8fbe9054]);
  (444028782687747000, [0x54c8]);
  (449290208748530600, [0x4e2d]);
  (452918459266672900, [0x5df4]);
  (456066418958612500, [0x514b]);
  (457055302171537200, [0x8afe8bfa]);
  (458557207749908700, [0x6148]);
  (459826260314313200, [0x5c71]);
  (467246882160041550, [0x5e03]);
  (472036529994403150, [0x592a]);
  (475860525321831100, [0x4ea85a01]);
  (477981816985750400, [0x65af]);
  (478442293624425200, [0x4e9a4e9e]);
  (482044875850101500, [0x7279]);
  (483329002644933900, [0x5361]);
  (487283389358830550, [0x6d77]);
  (489149431630570800, [0x4f0a]);
  (489836719559347000, [0x897f]);
  (490702525833658500, [0x7d047ea6]);
  (492103599540618300, [0x592759388a87]);
  (493883005920665100, [0x5fb7]);
  (494423061238665100, [0x99ac9a6c]);
  (495512001218592000, [0x88e191cc]);
  (495694649671195400, [0x9577957f]);
  (496060950447069100, [0x4e09]);
  (501917203367877000, [0x59655967]);
  (503881903106256700, [0x79d1]);
  (506903280965906300, [0x754c]);
  (507313117605134500, [0x65b0]);
  (508969470172302000, [0x5df2]);
  (509597744490251500, [0x5357]);
  (512799725613728600, [0x5409]);
  (513890248961954900, [0x7f577f85]);
  (514329810109258700, [0x7a46]);
  (518375305578490050, [0x6bd4]);
  (519065757113144500, [0x5854]);
  (522591386660917840, [0x83b1840a]);
  (523071003887267150, [0x5e935eab7c73]);
  (525504213953220200, [0x683c]);
  (526245873718725200, [0x51ef51f1]);
  (527243388224407200, [0x7dad7ef4]);
  (528758568726467400, [0x5c3c]);
  (530038995951066200, [0x56db]);
  (533981687949012000, [0x5929]);
  (535059865509340800, [0x6d1b]);
  (535331236096500400, [0x8299]);
  (535603345107936500, [0x5f17]);
  (535876196573256900, [0x52a0]);
  (539492724220063800, [0x5b89]);
  (542075364176053700, [0x56fe57165e0c]);
  (543834940365091700, [0x6469]);
  (544428413917073100, [0x6258]);
  (548374297591127800, [0x9ad8]);
  (549620419634909000, [0x4fdd]);
  (551200231322568200, [0x5b9d5bf6]);
  (554766249362456600, [0x74e683f2]);
  (557103584480987500, [0x8c9d8d1d]);
  (558807203196244300, [0x5170862d]);
  (561948822819582200, [0x5f7c]);
  (563377418544329800, [0x4e94]);
  (564826719274586500, [0x8def]);
  (567040831862307800, [0x57fa]);
  (567414664073368600, [0x5c14723e]);
  (568166547314771300, [0x585e]);
  (568544619598761900, [0x5229]);
  (573993438127168900, [0x662d]);
  (574796655296895300, [0x5c0f]);
  (575200696250595800, [0x52aa]);
  (577245757297724900, [0x9806987a]);
  (578075637579194400, [0x8cbb8d39]);
  (581465792746762500, [0x81ea]);
  (589075727100627200, [0x6c496f22]);
  (589541928411208400, [0x842885a9]);
  (590953716565786900, [0x636263db91d1]);
  (591906104716912400, [0x666e]);
  (593351913034435400, [0x8fc89081]);
  (594818932009214800, [0x4e3a70ba]);
  (596307793258589850, [0x96c5]);
  (599353714007060700, [0x4e4c57c370cf]);
  (600912187108730500, [0x5efa]);
  (601437122697344900, [0x67e58c6a]);
  (605738861205714000, [0x8153]);
  (608524556656010600, [0x6cf0]);
  (609091130409578300, [0x6b276b50]);
  (609660932521042100, [0x4e0a83ab]);
  (613149658421086100, [0x572376d6805684cb]);
  (613743131973067600, [0x9ea59ea6]);
  (614340148671718000, [0x52d2739b746a]);
  (618622148390010800, [0x5b99]);
  (620514949378562700, [0x743c74ca]);
  (623751477828765800, [0x51675185]);
  (624411546231901050, [0x53e45b9a6cd5]);
  (625744899318847600, [0x5217]);
  (629158199955793400, [0x6c34]);
  (629855066887402800, [0x5bab5bae]);
  (630556824153267400, [0x65e5]);
  (631263540875576600, [0x7518]);
  (631975287652463100, [0x51c96ce26dbc]);
  (633414161397673100, [0x57287433]);
  (634874041339788300, [0x4f69]);
  (635612052069550500, [0x574e]);
  (637859337654756400, [0x6069745e]);
  (638619797593278400, [0x5676]);
  (639386084867835300, [0x5730]);
  (640158289477226300, [0x6ec7]);
  (641720821267534400, [0x5e15]);
  (643308156183163400, [0x65bd]);
  (644921094376151800, [0x6885]);
  (645737425440067900, [0x535a767b82f1]);
  (646560475353719400, [0x4f2f4ffe7d0d7eb3]);
  (649922136433617900, [0x6492]);
  (650780510802757000, [0x6167798f]);
  (653400748042159500, [0x8d6b]);
  (655186509782160100, [0x534e83ef]);
  (657926407200971600, [0x7080716c]);
  (658856646467202900, [0x73bb]);
  (659795620502186800, [0x928594dc]);
  (661700439999256200, [0x51659ed1]);
  (662666631090429900, [0x624e]);
  (663642248584966400, [0x6b4c975e]);
  (665622511314584400, [0x509165876770]);
  (666627544899934500, [0x4e5455ac]);
  (667642782046336300, [0x611b723182e5]);
  (668668432063055200, [0x9b6f9c81]);
  (669704710766609900, [0x76ae]);
  (670751840753339400, [0x6c99]);
  (671810051686393100, [0x4e0d5bcc5ef6]);
  (672879580598067900, [0x8482]);
  (675053579261708500, [0x54ea]);
  (676158562880367000, [0x83779f8d9f99]);
  (677275892940179500, [0x548c827e]);
  (678405848465572900, [0x671782ac]);
  (679548718047935100, [0x8fea]);
  (680704800288042700, [0x5f007da07eff958b]);
  (681874404264361900, [0x4e345a1c62086c5f81e8]);
  (683057850029062100, [0x708e]);
  (684255469133733700, [0x62dc]);
  (685467605186968200, [0x520756fd570b901a96f7]);
  (686694614446149650, [0x540c9640]);
  (687936866446005400, [0x732e737b]);
  (689194744666691300, [0x6e05]);
  (690468647244434300, [0x5fa179a6]);
  (693066195884760400, [0x84999ed8]);
  (695733020592976550, [0x6c83767d]);
  (697093585798554400, [0x5510672c97cb97e6]);
  (698472918011787950, [0x518d5347]);
  (699871542209261900, [0x52fe93ae9547]);
  (701290005708457600, [0x58a86c7482cf8607]);
  (702728879453667600, [0x8036]);
  (704188759395782900, [0x6797]);
  (705670267974296900, [0x4f469053]);
  (707174055710751000, [0x4e07842c]);
  (708700802923829800, [0x4f26502b53625baa61b276e79b4f]);
  (710251221577426300, [0x51798332]);
  (711826057274240200, [0x5a46]);
  (715052143496062300, [0x4f3d53177530970d9999]);
  (716705073691183400, [0x4e00]);
  (718385785522821600, [0x4e1c5b5d677174dc7d22]);
  (720095228858751600, [0x6bd7]);
  (721834403129938450, [0x6c38]);
  (723604360839878600, [0x5b8c6649664b]);
  (725406211390146450, [0x4e396c9f6e9d7d027ea3]);
  (729110338558181300, [0x800190fe]);
  (731015158055250800, [0x83498d0a8d5e]);
  (732956966640960950, [0x5b5a5eb776ca83b284ee8fde9023958095e8]);
  (736957500102330900, [0x4f50571f820d]);
  (739019428822604400, [0x521852895e73677e70759748]);
  (741124769742387600, [0x592b6e296eab7acb]);
  (743275390264484000, [0x5e7f5ee3600061f7771f]);
  (745473280936361500, [0x536b5c24885b8b1d8c228fd196c6]);
  (747720566521567400, [0x66fc]);
  (750019518344037300, [0x4faf51435bdf6cf86cfd6fa47018800c80af]);
  (752372568085056700, [0x8302932294b1]);
  (754782323242962700, [0x59c65b5f73c0]);
  (757251584501999900, [0x51885ca167f38cfd8d5b]);
  (759783365300428850, [0x5272660e675c6c947d107ebd800389449633967d]);
  (762380913940754900, [0x4f5b62406df373ed74067f8e8cf48d56]);
  (765047738648971100, [0x4e5051ac546867316a029031]);
  (767787636067782500, [0x52c3541b6cb370ed71b1]);
  (770604723764452200, [0x54f266026e90]);
  (773503477451777300, [0x51495225522b594e79e68fbd907c92749451]);
  (776488773766745500, [0x4e3d54115e9e9e979f90]);
  (779565939633420900, [0x538453f859225bc6623468a676d876e48cb48d3590a6]);
  (782740809464878850, [0x4ec067d4688182cd84bc85e4943594c1]);
  (786019791747178000, [0x4e1d4e3b531654e559cb5b507d728d64]);
  (789409946914746100, [0x51b05ddd65ed6728]);
  (792919078895873100, [0x53f6540e5f8c7af983898449]);
  (796555843312960600, [0x53ef59495cea601d6851777f]);
  (800329876111245200, [0x4f1a519557665bb967038212]);
  (804251947426573500, [0x560959485b815b985be75cb1660c]);
  (808334146878598900, [0x4f115e1d8239]);
  (812590108320478600, [0x52b352de5c455e9c65fa672a677f85cf96359663]);
  (817035284577562000, [0x62106839695a71b9738991ce]);
  (821687286141051100, [0x59ae5f525fd766066b636b786d3e76d07b2c7d8f7ee597529e7d]);
  (826566302557994300, [0x4e8e50d659475b9c63d065bc67a367ef68d76d4e6fdf743479cb826f90a390fd]);
  (831695631996749500, [0x4ee3524d53f268936c6073cd89ba89c9]);
  (837102354123777000, [0x4f595bb65de8679c72e983549918]);
  (842818195507771900, [0x4e955b8b5c1a6c646daa6e6f96c19732]);
  (848880657689415400, [0x51e15de682728f9b]);
  (855334509803172500, [0x4ec151745f69704c7ba17cbe7d2b820882b18328964796b4]);
  (862233796951867700, [0x4e9151e451fa52365ca960e068ad68ee6d456dfa82a58cc78d4496f29cf39db49e64]);
  (869644594167239800, [0x4f184fee512a53f35b9b5bbe5c116625808783398cd393269526984d989d9ece]);
  (877648864934593400, [0x4e7054155442547c5d4a63a167346a386b3d6caa6cbd6eec8c618cb78fe691c792ef94a69506]);
  (886350002633556500, [0x4eac4f0d57ab588a5f906f6e725b76f478c57d307d397ec67ecd92fc932b932f94a29519952196ea980398779cf49e23; 0x9ed4]);
  (895881020613988900, [0x4e454f554fe151b753cc57ce590f5b5466f26d316d856f588549864e8fb096d99f4a9f50]);
  (906417072179771600, [0x529b542f555f59165e2d5f205f3565f66642673568666a3a6b666bdb6d666f8474598a798cc88d3e91cd9759975c97d3; 0x97e9]);
  (918195375745410000, [0x4e494f86516c5386541057a658be591c5b635b665b7863aa67656b77738b745f795679f07a317fa9808c80b2821f8475; 0x8fed9ec39ec49f13]);
  (931548515007862200, [0x4e305206523b559c56e056fa580259745e385e965ef75f6d626c63da65d765e7672d67f46b236c407372788c7aef820a; 0x83b78c508d758d8a8d998fdc9060928094f69b919c8d]);
  (946963582990588000, [0x4e0b4e18516852d053535408576a58eb5c3e5de75f795fe060466052675f6c766d1e6d526ef872ec736875357e417e46; 0x7f2a809680a58292839288618f1d8f8996fb97699e9f]);
  (965195738669983400, [0x4ea44eca4ed4519c53cb53d4542b59545b7a5b885b955cb35e8661766570657865906781686569756a4b6dd16df9723d; 0x73ca753278d0801080e18d778fb2915293969501964896739bae9c9c9e7f]);
  (987510093801404500, [0x517b52fa572d57f9595159995c905dee5f715fc5602162ff66fe676d6a2a6a6b6c286c6a6da96e1d6e7e6ee66f806fb3; 0x7063706473de758f768b7fbd80fd841d84b2863f891290429093912795a995fd96de990a9e219ebb]);
  (1016278301046582500, [0x560e575a5805582f58515b875c015c275c9b5ca25cf65f255f4c655965b9661f6653667466c9671d674e6876690d6c90; 0x6c9b6cd76d256d9e6dee6df16df66e4471e772ee734575337559756579c07d2082ad835283ca8a368bc38c378ca28d21; 0x9813987f98db98de9df99e709f9c9f9f]);
  (1056824811857399000, [0x4e014e244e5d4e614f9d516953f0543e54c156ca57425b975bfa5c065c075c0a5d695e085e2b5f9762b1637765cc6613; 0x6749685468b56bb76bd56ecb6ee46ffe7317756277f37ae07e547ec7808380858346834a838e84d384ec878d8a088ba1; 0x8ff7910993e1955c]);
  (1126139529913393600, [0x4ed34ed94ef24fca5009516b51cc5251528d53395370540d5433543455805747576458585988599659ec5abd5b8f5c04; 0x5e025e9a5ed65f026070607a613763ed656665e9676867cf694a6960697c69ae6a136b216c426cbb6d276e216fd17028; 0x71df724772c4752b7570768676db775a793a795e7b567bc47c9f7d007eaa7fe07ff082b382bd83038363842584dd8584; 0x85cd886e889e88d889c089c28aee8c188db3900f9676968b96c496fe97279808987b98a898ce99ff9a8f9b8e9c879ce5; 0x9d3b9e1f9e3f9edb])
].
(** prob_emit.go:16352-18340 probEmit, state 130 *)
Definition emit_130 : list (Z * list Z) := [
  (205143850034640660, [0x4e2d]);
  (331429997844689070, [0x7f8e]);
  (363748005788817030, [0x5317]);
  (374150863643094440, [0x4e0a]);
  (391068380454622100, [0x6cb3]);
  (398669553190210340, [0x5357]);
  (406934709289550200, [0x897f]);
  (408807249302015100, [0x65e5]);
  (417859061144805000, [0x82f1]);
  (431135274039089200, [0x5e7f5ee3]);
  (433977753104783000, [0x4e1c6771]);
  (434128559949832500, [0x6c5f]);
  (434693590209014600, [0x9577957f]);
  (437411566862872200, [0x5df4]);
  (441811383931107400, [0x5c71]);
  (442772090010075600, [0x5927]);
  (445237511939568800, [0x5370]);
  (450039539785792450, [0x6cd5]);
  (451752847608412400, [0x82cf8607]);
  (454576450063583900, [0x90d1912d]);
  (457940643309909100, [0x5fb7]);
  (462538553859392500, [0x65b0]);
  (466464368059897350, [0x6b276b50]);
  (467386162296445900, [0x9ec39ec4]);
  (474268413072444250, [0x963f]);
  (484565926446601750, [0x53f0]);
  (492017744044551450, [0x4fc4]);
  (492864977593714750, [0x5929]);
  (496028168865826600, [0x534e83ef]);
  (496215189679642400, [0x6e56]);
  (496853689501423200, [0x4e9a4e9e]);
  (498257620737623900, [0x6df1]);
  (501362255030710300, [0x592a]);
  (503775855787809200, [0x9999]);
  (512196565513154800, [0x56db]);
  (514193082583706000, [0x5b89]);
  (517310868395332600, [0x798f]);
  (519201019172088250, [0x6d59]);
  (524497868426659300, [0x6fb3]);
  (525320918340310900, [0x6d77]);
  (528553163069805350, [0x7f577f85]);
  (530196178253807000, [0x6d1b]);
  (532672013486484900, [0x99ac9a6c]);
  (534220326367104700, [0x6ce2]);
  (534467003208648100, [0x8499]);
  (534907047923130300, [0x6b66]);
  (537221385150010200, [0x9752]);
  (538813684927955500, [0x9655965d]);
  (540490024760788050, [0x4e9196f2]);
  (541662714834069100, [0x4f0a]);
  (551770444209601900, [0x8fbd907c]);
  (552457957148475400, [0x610f]);
  (553947311171732100, [0x8fea]);
  (558169933723487950, [0x52a0]);
  (560991990487713000, [0x676d]);
  (563418327150297800, [0x91cd]);
  (567419608714292300, [0x671d]);
  (568725310828030100, [0x975e]);
  (577528408630754400, [0x4e4c70cf]);
  (578461409461530600, [0x57ce]);
  (580701916797168400, [0x9ed1]);
  (581797217999088200, [0x6dee]);
  (582548935003408500, [0x57c3]);
  (582726633850701400, [0x8cb48d35]);
  (584747812019352500, [0x91d1]);
  (585065921808172000, [0x6210]);
  (585476412692445800, [0x51675185]);
  (587881709038624500, [0x4f26502b]);
  (590346288759307200, [0x4e09]);
  (591942453239395000, [0x5b815be7]);
  (592725619258963500, [0x745e]);
  (594111094166999200, [0x4eac]);
  (594460483092424800, [0x7d107ebd]);
  (594961737274779200, [0x5e0c]);
  (598178762205196350, [0x767d77f3]);
  (598282604374444600, [0x54e5]);
  (599747832053131600, [0x7518]);
  (599853317294980300, [0x6cf0]);
  (603179804262662500, [0x6606]);
  (603507673408832400, [0x6c38]);
  (605107707543476450, [0x6c496f22]);
  (609600928508348100, [0x5409]);
  (612193884620716300, [0x9ad8]);
  (615532586223990000, [0x79e6]);
  (616151783248782200, [0x97d397e9]);
  (619114496004485400, [0x53e4]);
  (619949708055303800, [0x5f00958b]);
  (621444698524769700, [0x54c8]);
  (623028890071335500, [0x6e58]);
  (623295379236373200, [0x4e3481e8]);
  (627519440438730500, [0x5546]);
  (628287868949208850, [0x59655967]);
  (628639116236922900, [0x5e73]);
  (629132944400981200, [0x8346834a]);
  (632367146517788100, [0x6ee16eff]);
  (633468883699410950, [0x83ab]);
  (633987211405596600, [0x5c3c]);
  (634210176938323500, [0x4e3962c9]);
  (637538774701670200, [0x8377]);
  (639559045433422100, [0x5e03]);
  (640188968776220900, [0x9f8d9f99]);
  (643155118090029500, [0x5580]);
  (643236518175924200, [0x571f5ef6]);
  (644713165187554350, [0x51735854894495dc]);
  (645793358490835700, [0x8d8a]);
  (649192156327265400, [0x4e5d]);
  (649365166751043600, [0x6c99]);
  (649973071358681850, [0x677e]);
  (653429330311596300, [0x96c5]);
  (655433040334512000, [0x626c63da]);
  (657102837944128500, [0x5730]);
  (658137167804808500, [0x65af]);
  (659949329936710250, [0x6d4e6fdf]);
  (662879227011272100, [0x57238056]);
  (664881295884361800, [0x73e0]);
  (666204470405323800, [0x5f90]);
  (671247555768012900, [0x6c88]);
  (672004725421102300, [0x71d5]);
  (672877140987136200, [0x54b8]);
  (673646798442335100, [0x5b9c]);
  (674422425599471000, [0x5e38]);
  (674980151529281600, [0x6bd4]);
  (675092070958983100, [0x58a8]);
  (675428582774014400, [0x5410]);
  (675653554747416000, [0x5170862d]);
  (676331523445953800, [0x5609]);
  (676558538299407800, [0x67cf]);
  (677014119952993900, [0x83b1840a]);
  (677357173462672800, [0x79d1]);
  (678741278603859900, [0x5a01]);
  (679090319097836750, [0x4fdd]);
  (679557609667776050, [0x611b7231]);
  (683864495386358300, [0x4e8c]);
  (684847304279984600, [0x93ae9547]);
  (685218362219638100, [0x4e94]);
  (686089556279840300, [0x7dad7ef4]);
  (686842382921919500, [0x51748208]);
  (687727904204892700, [0x514b]);
  (688749624459558200, [0x6649664b]);
  (689264426111298350, [0x632a]);
  (689652274044155400, [0x688188e191cc]);
  (689781891690300100, [0x6566]);
  (690824925918187300, [0x6e296eab]);
  (691482390482395800, [0x65e07121]);
  (693078169026256900, [0x4e4b4f5b]);
  (694156346586585700, [0x8a318bb8]);
  (694291939827699340, [0x4ee55951]);
  (694427717173745400, [0x5f205f35]);
  (694699826185181500, [0x7389]);
  (694836158857967900, [0x585e]);
  (695109383071655200, [0x53a65ec8]);
  (696348215157350400, [0x6377]);
  (696764593274528300, [0x7dec7f05]);
  (696903772141810600, [0x901a]);
  (700592133484866100, [0x8001]);
  (703079459959380100, [0x4e07842c]);
  (703524894994318000, [0x6842]);
  (703822957808131800, [0x591a9102]);
  (704271724455070650, [0x5408]);
  (704722514098989600, [0x8461]);
  (706853492757664700, [0x7d057ea2]);
  (707161659411405500, [0x5bc6]);
  (707316099596543000, [0x6d66]);
  (708091898677636900, [0x5c0f]);
  (708873763489416700, [0x5308]);
  (710775564072992900, [0x83f2]);
  (711096077167887700, [0x5b9d5bf6]);
  (713533240850016300, [0x7d397ecd]);
  (713862730439701600, [0x76f4]);
  (714691235593112200, [0x8c6b]);
  (714857763525018350, [0x9633967d]);
  (715526662340098000, [0x6469]);
  (716538475356656500, [0x90a3]);
  (718420481289333500, [0x6f7c]);
  (721222766232663900, [0x6e2d]);
  (722294205053904600, [0x6e05]);
  (724472149580308600, [0x4e245169]);
  (725393815090801000, [0x5229]);
  (726324054357032400, [0x51e49cf3]);
  (727074526922439100, [0x5510]);
  (728210902787470600, [0x93269526]);
  (728592582640140750, [0x4f0f]);
  (729940052498476700, [0x548c]);
  (730913770026262500, [0x8d64]);
  (732890118938146500, [0x6d2a]);
  (734702857397402200, [0x683c]);
  (735519188461318300, [0x516d]);
  (735929866656583600, [0x695a]);
  (736756317641573000, [0x7941]);
  (737799079957798900, [0x51658fbe9054]);
  (738852830488077500, [0x5361]);
  (740132165634068400, [0x82ac]);
  (741428080098319000, [0x5b9a]);
  (741863810635214500, [0x4fe16a2a6a6b]);
  (742520987151538000, [0x5180932294b1]);
  (743182511063409900, [0x5ddd]);
  (743848440272407500, [0x6cc9]);
  (744518833844626600, [0x535a6587]);
  (744968272803410500, [0x8def]);
  (745419740838863200, [0x707595a995fd9748]);
  (745873256355402300, [0x7126]);
  (746100787739115800, [0x8d1b8d63]);
  (746328838008988400, [0x51c66e96]);
  (746557409537074000, [0x79d8]);
  (747016125937764600, [0x4e0b54335434]);
  (747708170222222000, [0x53d96558]);
  (747939920036258200, [0x82b1]);
  (748405037153831300, [0x66f2]);
  (749577383523437200, [0x54689031]);
  (750287445678394900, [0x536276e7]);
  (750525257918891600, [0x928094f6]);
  (750763637054419200, [0x666e]);
  (751964131664101600, [0x66fc]);
  (752691407597009600, [0x540c]);
  (753424011606216800, [0x547c5efa]);
  (754162022335979100, [0x559c]);
  (754905520184730900, [0x5b5f]);
  (755154586315976050, [0x7c73]);
  (755905528518189200, [0x5949932b9521]);
  (756915638116839600, [0x8fdc9060]);
  (757679973048096400, [0x70df7159]);
  (758450195084305600, [0x9ea59ea6]);
  (758966992100149900, [0x6850]);
  (759226395617854600, [0x4e506a02]);
  (759486473787860300, [0x96469678]);
  (760533603774589800, [0x90fd]);
  (762125149305179850, [0x666f]);
  (763200428482806000, [0x829d]);
  (764287395706496400, [0x57fa]);
  (764560993688383800, [0x4e03]);
  (765110445620147900, [0x629a64ab]);
  (765940325901617400, [0x795e]);
  (766777150868669100, [0x6c81]);
  (767057655961429900, [0x4e0d]);
  (767621037733255600, [0x8861]);
  (768187611486823300, [0x6cf87018]);
  (768757413598287100, [0x6f6e]);
  (769330481069185500, [0x660c842885a98c9d8d1d]);
  (769906851540860600, [0x7d2b]);
  (771362481318281300, [0x7384]);
  (772542436011396800, [0x6986]);
  (773436629748963000, [0x5e935eab]);
  (773736480048588600, [0x8fde9023]);
  (774037232154984200, [0x964796b4]);
  (774641463600580400, [0x56de]);
  (774944953970095800, [0x67ec]);
  (777406616733631400, [0x738b]);
  (778031618768148550, [0x7d047ea69131961c]);
  (778345590768615300, [0x67f3]);
  (779611430455807700, [0x864e]);
  (779930409992617700, [0x667a6ca76ec4]);
  (780571437828709600, [0x51e05ba35e7e]);
  (781540750749275600, [0x4e00]);
  (781865954287913300, [0x6c34]);
  (782519551385891800, [0x5e905eec]);
  (782847958906010800, [0x61556b63]);
  (783177448495696100, [0x5d69]);
  (785177515166363000, [0x53f65ce88449]);
  (785514783614227000, [0x7687]);
  (785853193412651050, [0x767b]);
  (786875348819804800, [0x870090af]);
  (787218402329483800, [0x60e067f4]);
  (787562636748581000, [0x767e]);
  (789653305230512400, [0x8cbb8d39]);
  (790006039282309200, [0x541b624e9b6f9c81]);
  (790360021952821600, [0x5348]);
  (790715262113258400, [0x4f2f7109]);
  (791071768729708100, [0x928594dc]);
  (791429550864496440, [0x756a]);
  (792873619279975900, [0x4e95]);
  (793237918407826000, [0x4e8e65bc]);
  (793603549528137000, [0x53676c7481e5829c856a]);
  (793970522417033300, [0x6885]);
  (794338846958662900, [0x590f]);
  (795452030995547300, [0x6ee86ff1]);
  (795825863206608000, [0x58fd5bff]);
  (796201098168463100, [0x76d09e7d]);
  (796577746448010800, [0x6f3390e1]);
  (796955818732001400, [0x8054806f]);
  (798098688314363600, [0x6843]);
  (798867922876679250, [0x5305]);
  (799254770554471250, [0x96349670]);
  (800032984598676800, [0x8eca8f669075]);
  (800424374530790300, [0x4f599918]);
  (800817302344779400, [0x7d22]);
  (801211780173881000, [0x5b98]);
  (801607820295490600, [0x540e5e155f8c654580af9806987a]);
  (802005435133454500, [0x59d4]);
  (802404637260408300, [0x521a525b6f9c703e]);
  (802805439400162200, [0x9f9c9f9f]);
  (803611895383835200, [0x5d07]);
  (804424907992160200, [0x7d8f7ee5]);
  (805244584712578200, [0x8cc08d3a]);
  (805656956430964400, [0x6e5b]);
  (806071035697567600, [0x5bcc]);
  (806904373853482000, [0x591680f681a0]);
  (807323661679485500, [0x4ed9]);
  (807744714933120000, [0x600061f7]);
  (808592177632217200, [0x675e]);
  (809018617510862900, [0x7cbe]);
  (809446883690063000, [0x9d289e2d]);
  (810742798154313400, [0x53cc660e6bdb70ed71b1722a96d9]);
  (811616166151188900, [0x739b746a]);
  (812055727298492700, [0x5cb7627f]);
  (813833551900621200, [0x9ed4]);
  (814734458894857700, [0x743c74ca]);
  (815187974411396800, [0x516b57645e846c55838a]);
  (815643556064982900, [0x5251528d96c1]);
  (816101222767724000, [0x6c7e725b8c37]);
  (817022888278216500, [0x51e1]);
  (817486926233866700, [0x6c646e6f]);
  (817953127544447900, [0x4e497fa9]);
  (818421512475690500, [0x5b5d65e76797820a90939127]);
  (818892101579431800, [0x9152]);
  (819364915699026300, [0x5cb3]);
  (820317303850152000, [0x9ece]);
  (820796921076501300, [0x62766dc47acb98249890]);
  (822249731132792200, [0x4e3d984d989d9e97]);
  (823230131142454300, [0x6d516e3e]);
  (823723959306512500, [0x4e308c50]);
  (824220238240725500, [0x6fee]);
  (824718992391829400, [0x515651575eb77a818036]);
  (825724025977179500, [0x96f7]);
  (826230356172834100, [0x5384]);
  (826739263123581300, [0x7279]);
  (827764913140300300, [0x57667ca47cb5]);
  (828801191843855000, [0x84dd85cd]);
  (829323386241970000, [0x4eba6cd78fe6]);
  (830906532763638000, [0x6ec7]);
  (831439867361174300, [0x4ec15143]);
  (831976061675312900, [0x6012623f65c5]);
  (833057153285734500, [0x5f175f537576]);
  (834701025920050400, [0x6e24821f]);
  (835255043957612000, [0x5c45]);
  (835812148462557600, [0x56fa7dbf7ef5]);
  (836372374017424600, [0x68516d25]);
  (836935755789250100, [0x5f7c6ee6706499d09a7b]);
  (837502329542817800, [0x6d1e6d4f700f]);
  (838072131654281600, [0x56fe5716597d]);
  (838645199125180200, [0x5341]);
  (839221569596855000, [0x6c11]);
  (840970885341606900, [0x64926768694a8d0a8d5e]);
  (841560857554325600, [0x5deb6e5f7696]);
  (842751347804957400, [0x6ece8365]);
  (843351950210978700, [0x6cfe6d87845b943594c1]);
  (844564086264213100, [0x6a0a]);
  (845175708965956800, [0x6cbb73af74b0829990e79116]);
  (845791095523394500, [0x5217682a878d]);
  (847033347523250200, [0x51885ca15f6d]);
  (847660308824610000, [0x5e955e9c6c5d71df725984258af88bf89053]);
  (848291225743936300, [0x4e4d4f1a5e995edf67036f2f]);
  (848926148511802100, [0x53397ba1]);
  (849565128321679300, [0x51b05bbf76db85e9]);
  (850855468805270100, [0x5706571372ec7368]);
  (852162676962005400, [0x5de2978d]);
  (852822745365140600, [0x5ae9]);
  (854156098452087000, [0x6f47701f8afe8bfa]);
  (854829501670221400, [0x5e8661766f8e76ca]);
  (855507470368759300, [0x73bb9db49e64]);
  (856190066875799400, [0x5982671b726175309b4f]);
  (856877354804575700, [0x83029686]);
  (857569399089033000, [0x5de9978f]);
  (858266266020642200, [0x97f6]);
  (858968023286506900, [0x6c856dbf970d]);
  (859674740008816200, [0x592b]);
  (860386486785702500, [0x4fee]);
  (861103335733563700, [0x6089]);
  (861825360530912500, [0x84ec]);
  (862552636463820500, [0x6ef9]);
  (863285240473027700, [0x740990429756]);
  (864023251202790000, [0x4e2556b466fe7d0d7eb3]);
  (864766749051541900, [0x5f97]);
  (866270536787995800, [0x817e92ea94fa9a30]);
  (867030996726517800, [0x4e265e768cc78d44]);
  (867797284001074800, [0x91e394189493949f]);
  (868569488610465800, [0x6d0b6daa]);
  (869347702654671300, [0x6c82]);
  (870922538351485200, [0x5858]);
  (872522572486129300, [0x56fd570b65c168a779bb96e2]);
  (873332293509391300, [0x661399289986]);
  (874148624573307300, [0x582a6069672c]);
  (874971674486959000, [0x6f4d6ff083b2842784ee856d8679868c]);
  (875801554768428400, [0x7f8a]);
  (877482266600066500, [0x52185289]);
  (878333335566857400, [0x50435a7a90d391069f4a9f50]);
  (879191709935996500, [0x76d876e4]);
  (880057516210308000, [0x542f555f6e44]);
  (880930884207183400, [0x84df858a]);
  (881811947175399000, [0x541554426500]);
  (882700841917123600, [0x5371697c6a13]);
  (883597708915399600, [0x5c6f5f706cb190a2]);
  (884502692467391300, [0x68b574e689c089c28fd0904b]);
  (885415940823718600, [0x5c3e706b]);
  (886337606334211000, [0x6e216ed17f8c9b41]);
  (887267845600442400, [0x5b50]);
  (888206819635426300, [0x53e383059675]);
  (889154694030880700, [0x572d]);
  (890111639132495800, [0x4e5f51b253436258885d]);
  (891077830223669500, [0x5386675c6b7779b9]);
  (892053447718206000, [0x4f7365b966f96eaa81ea]);
  (894033710447823900, [0x5bdf6b226b619e7f]);
  (895038744033174000, [0x4f8667656c768087838e96de9e21]);
  (896053981179575800, [0x6f588272912f]);
  (897079631196294800, [0x60466052]);
  (898115909899849500, [0x6f2073cd8c6190979813987f]);
  (900221250819632600, [0x93e1955c]);
  (901290779731307400, [0x6d2e]);
  (902371871341729000, [0x7b2c83cf90b5]);
  (903464778394948000, [0x79658862]);
  (904569762013606600, [0x51c96d316dbc82cd84bc8d6b9759975c]);
  (905687092073419000, [0x52066f5b6f5c]);
  (906817047598812400, [0x4e2a500b804a96489673]);
  (909115999421282200, [0x4eea5100567659d1662d826f]);
  (910285603397601400, [0x539f53f366b99632]);
  (911469049162301600, [0x4ea45e9461c9677f]);
  (912666668266973200, [0x5bbe6da66f6476f18cd3]);
  (913878804320207600, [0x53cb5ffb67a368d76cad89d2]);
  (915105813579389000, [0x6f8476d684cb968f96a8]);
  (916348065579244800, [0x54118ca28d218d758d99]);
  (917605943799930800, [0x4ef05c11621b6c8372fc]);
  (918879846377673800, [0x516c5c90659074ee75158336]);
  (920170186861264700, [0x6fa7]);
  (921477395018000000, [0x679d6f1372ee734574dc]);
  (922801917693001900, [0x4eb3674f]);
  (924144219726216000, [0x52c35c16780078ad909b]);
  (925504784931793800, [0x519b8ecd8f9b96c6]);
  (926884117145027500, [0x4f115de69996]);
  (929701204841697000, [0x4ece534a5f9e78c18153959495f5]);
  (931140078586907000, [0x5149524d96ea]);
  (932599958529022300, [0x4e5455ac63ed]);
  (934081467107536400, [0x4faf540d56e25718601d91b4]);
  (935585254843990400, [0x58f658fa76f8]);
  (937112002057069300, [0x51cc674e6f41786e78ba90f496fe972798059879988d]);
  (938662420710665800, [0x4e66537366f88386]);
  (940237256407479700, [0x59486b5996cd9738]);
  (941837290542123800, [0x5b9b5c4f79ed840d843d8fc7904e]);
  (943463342629301800, [0x6b3d6e7e706394a6]);
  (945116272824423000, [0x4e1451ef51f15d025d9764ad8f388f939ebb]);
  (946796984656061000, [0x67286c9b7684]);
  (948506427991991000, [0x5b546e116fa073ed7b4984b2851a]);
  (950245602263178000, [0x7709]);
  (952015559973118100, [0x51b761486ec16ecf73f2743f98db98de]);
  (953817410523385900, [0x54f26c4090b3]);
  (955652324390205600, [0x570858305e7c5eca62dc6d5a6dc574ef750c]);
  (957521537691420800, [0x5a045a4167146d696df36ea76f5e797f79848f1d8f89]);
  (959426357188490400, [0x59376d4189e3]);
  (961368165774200500, [0x4f9d5d065e0267517a007ffc]);
  (963348428503818400, [0x6d9f6f2380a59d5d9e45]);
  (965368699235570400, [0x517152d259885abd5cab5cad5dba5fae79c08859959895f8]);
  (967430627955844000, [0x5d4a701b72b97336]);
  (969535968875627100, [0x4f2a507d67087aef821e]);
  (971686589397723600, [0x607065976a80755991dc9a6a9a8a9b25]);
  (973884480069601100, [0x4f5054c05f5262406b78846b]);
  (976131765654807000, [0x576a728d758f7d937ecf827e]);
  (978430717477276700, [0x574e5de562f1681668f27adf7fe08a258bb7]);
  (980783767218296100, [0x5ca9653f68656a4b6da16e266e2f70ae925b94c5]);
  (983193522376202200, [0x4e7e53ef606d661f805a9095911e]);
  (985662783635239300, [0x51ed619168d56f89]);
  (988194564433668400, [0x536b57475b8b67ab69536fb67e097f198000885b]);
  (990792113073994500, [0x4ffe510b5c046e1d76d176e37af98f2a8f6e9099]);
  (993458937782210500, [0x5c246bd56c60732e737b75627ae07d427ec87fbd82e5907f96e89b5a9c7c]);
  (996198835201022000, [0x4ec05939593e69ae6d546f626f6f77627bad83638fc89081958095e8]);
  (999015922897691600, [0x4e735bd25c9a5d5062d268c990b990ed9112]);
  (1001914676585016800, [0x520752aa5bbd5bec5c1a606f67e56c6876c679ef7a4d9f0e]);
  (1004899972899985000, [0x4e434ecb519c572a5bab5bae5c975cb15d17672a704c8abf8c038fb2]);
  (1007977138766660400, [0x59476d6e6dc0752c839299f19a869d729e4a]);
  (1011152008598118400, [0x53f2594e5de86da76e206f9782399274945195ac96069df29e6b]);
  (1014430990880417500, [0x4e01540f5e745f0b5ff56731679c6a1f6cfd6d466e256f3f6fa4865e90ef96c4]);
  (1017821146047985600, [0x51ac53e5559d589e5bb968116a39]);
  (1021330278029112600, [0x5c0963a16f157579805e80e18ad28c0591c795fb]);
  (1024967042446200200, [0x51755e975faa68666a3a6d9e6df67e547ec7]);
  (1028741075244484700, [0x5c016a316afb732b76c882a683dc8572860486068c9396769cf49e23]);
  (1032663146559813000, [0x5351590d5a465b8c740682928fc1907790f8913297cb97e6]);
  (1036745346011838400, [0x4f365b595b6b5ce15cfd5fd7684c6d85706f71c87533832896619a0e9a919f13]);
  (1041001307453718100, [0x519570b376ae793c79ae7d2080128083808586c794729576]);
  (1045446483710801500, [0x4f3d575d58e9669667d869956ddd6de07b147b467def7eac9edf]);
  (1050098485274290600, [0x52b352de54cd5f6c5fe062db662568536caa6dc76eec7372754c7b2682d7835483b7848290eb97ff]);
  (1054977501691233900, [0x4ed34efb500951fc52e453f86236623769126b476c39725f78a77a7a7da67e4182b785cf86df87e090cf90df]);
  (1060106831129988900, [0x4ef2516852d05dcd5e725e79620862d9665366c9683e6b126cbe6d916fd1702875658821]);
  (1065513553257016500, [0x4e5e599959cb5b64655568396ccc6ce56fc974647476762687749104]);
  (1071229394641011400, [0x533b537757a357a6582f58be591c5bfa5c275c946cbf7bc47e3e7ee982ae83038d8591ab]);
  (1077291856822655000, [0x4e184e32504f515a531659146538660a6ca370437834840c88d59ee8]);
  (1083745708936412000, [0x4ee362ff63b863d064a365cc67176e2372487fc185c18a2d8bbe8cfd8d5b8f158f7b90e29149971e]);
  (1090644996085107200, [0x4f69509151af523a593859735b665b785bb665bd67706d456dfa6f3e708e718a731b73c07a377dbd7ef08a87966296c0; 0x99ae]);
  (1098055793300479300, [0x535355845e1d6248639665ec672d68a86d526ef86f2b74057435746f79817da07eff82f98352860b8b1b8bb291899b81; 0x9c85]);
  (1106060064067832900, [0x5b975df75e556298679e6a05768b834987d28a548bcf]);
  (1114761201766796000, [0x4eab501252dd570358315bfb5c0b5c985cf45dfd62a56320649365f666426d8978f47bb17c3080dc85e49e1b9e73]);
  (1124292219747228400, [0x5148540a572958575c065c075c15621a632f639265566bb56c9f6d3c6d6a6d826e9d6f6d6f7470267a917aaa7aaf7d73; 0x7edb88818dd1]);
  (1134828271313011000, [0x544a59dc5b8f660266146d60705e7b568003817084c9912296b0]);
  (1146606574878649500, [0x5355540455ae576157d459345c9b5cf6608560a66761689d74a77720793e7db27f518042807680b2810282e683ca8857; 0x8b1d8c228cc88d3e8ed28f69962a982d98a898ce9c329ccc9df99e709e92]);
  (1159959714141101700, [0x4e714e824ea64ea84f0d4fbf526153eb541e547556e05f92658b663e6cb96cca6d8c6de16e676e8675327538784778be; 0x79567d217e5e7eba7ed5809682b3836f85e5884c8f038f838fce90a69808986f987b9a5b9a7f9eff9f0b9f4b]);
  (1175374782123827400, [0x4e925065542b580659da5c485d165f845f915fbd6212678b67b668cb6a446ef473d9785678647d507ed3803f851787ba; 0x8dc38e8d]);
  (1193606937803223000, [0x4e6057a159155cf05ec95f255f4c65ed66a86740678169756b4c6bba6c946ca96cdb6e146e886e906f01741b768276c2; 0x7bc07d2f7dda7df47ebf7ec37fa47fd28212828283f18c468fb0968d9694995299769dfa9e6d]);
  (1215921292934644000, [0x4e1b4fb5508551a051c0534753a853d153e2574a57ab588a589f5bc45c395e9e5eda5fa1603b62a2635e63aa64366488; 0x66746749680e6adf6c7d6d4a6de86ed56fc1724c767c780178a378bc798579a679aa7ad97e3d80e5822c839883e983fd; 0x846389128a798aeb8c0f8c9e8d1e8fd89084932f951995f998539867987e989b9b279f90]);
  (1244689500179822000, [0x4e0e4ead4f555225522b52a152d9538253e0544855b7567456f4570d58eb5bf95c0d5c145e785ee05f5d624d62b164c2; 0x673a67a56a586a5f6aea6cbd6da96f806fe070ad723e74347535758a78fb7901795d79cb7ad67b4f7b607d307ec67fe1; 0x8207822a830c83bd8574860a8682879e8c4e900d906e90b190fe958395ea96fb994599929bae9c9c9ce59d3b9e1f9e3f]);
  (1285236010990638500, [0x4f4d4f58518a518c532f53d7545854e1552f55bb589958c15a115b5a5baa5ca35cc45da75e265e365f04602161b26234; 0x6247625362e964c765396591678767ff689368ad68d269606c476c5c6d3e6d6f7164724673de77e5788c789178d079cd; 0x7a2e7b0b7b4d7b527c7b828d829782c784668475852c858c8e0f8fdb90129032905e90bb90c191309396950195ca9614; 0x970797699802985e98769a629a749b319d099e26]);
  (1354550729046633000, [0x4e454e61517b52c953bf5587560e56ca5742575b582458c758e458ec593a596a597659a559e55b575b855c4b5c605c91; 0x5f135feb602a624b63d2653e65fa674267de682168e068ee693069d06b216b7b6cfa6e1a6ffc7089721072d77334745f; 0x753a76ee77fe783b786b78c5792c793179f07a317a3b7a467b807c217d717e237edf7f38800580fd820d82d482dc8343; 0x835f848b84b8852185238588859b870288638a9e8b598b938ba98bed8c2f8c6a8ef98f758fd1900a905c9109912391ce; 0x964296dc97329762978b979197c3984c989898f2990a996e9bc99ca49d6c9e4f9ed89f949f9a])
].
(** prob_emit.go:18341-18937 probEmit, state 131 *)
Definition emit_131 : list (Z * list Z) := [
  (139744007778717160, [0x4e2d]);
  (255355301697078560, [0x56fd570b]);
  (297387779848434500, [0x7f8e]);
  (357684447705996400, [0x5317]);
  (361065646713959780, [0x55468054806f]);
  (375181648470080780, [0x4e0a]);
  (385059802926059200, [0x65b0]);
  (388181804662180600, [0x82f1]);
  (390534854403200000, [0x8ca18d22]);
  (411398740914332800, [0x6d77]);
  (418298028063028000, [0x6df1]);
  (438725534764010700, [0x5168]);
  (442051256939658900, [0x6b276b50]);
  (443022138352355000, [0x4eba]);
  (448666269442850100, [0x65e5]);
  (458987498154803800, [0x5efa]);
  (472606676661449100, [0x62db]);
  (474760861038924600, [0x4e1c6771]);
  (479388936295325200, [0x5357]);
  (479564528965551800, [0x6c11]);
  (481516676140053800, [0x534e83ef]);
  (486476370253991000, [0x4e16]);
  (492291962269698400, [0x6cb3]);
  (493496796121315800, [0x5916]);
  (499964117155559300, [0x6e05]);
  (503920677176178400, [0x515a9ee8]);
  (506188348043281400, [0x4ea45e7f5ee3]);
  (508743655485743100, [0x9999]);
  (512336856408349500, [0x5927]);
  (518628238949406500, [0x82cf8607897f]);
  (535878220798951950, [0x6cd5]);
  (537747434100167200, [0x5fb7]);
  (538378351019493600, [0x90d1912d]);
  (539973281160261500, [0x519c8fb2]);
  (541921394717443700, [0x536b885b]);
  (543908215039116300, [0x56db]);
  (544243223727644400, [0x7d107ebd]);
  (544579358497914900, [0x6d66]);
  (545594595644316700, [0x54c8]);
  (559044963888662850, [0x6587]);
  (561009663627042500, [0x9752]);
  (564235749848864600, [0x5929]);
  (567146558264671700, [0x9577957f]);
  (572342532157742840, [0x4fc4]);
  (573235395232173000, [0x82b1]);
  (577354970875999700, [0x4e9a4e9e]);
  (580680693051648000, [0x798f]);
  (583622081572277300, [0x54e5]);
  (588725229573521900, [0x516c]);
  (589250165162136200, [0x829d]);
  (590308376095189900, [0x6d59]);
  (590841710692726200, [0x4e9196f297f3]);
  (594656887289163800, [0x5251528d]);
  (595213991794109400, [0x71d5]);
  (595774217348976350, [0x519b590d8ecd]);
  (597473974985833400, [0x532f6b666c47]);
  (598623412928406900, [0x725b]);
  (599203124696839600, [0x5370]);
  (602153191136509300, [0x7d057ea2]);
  (605192938854946500, [0x793e9ec39ec4]);
  (608327991843354100, [0x6ce2]);
  (608966971653231150, [0x53a65ec8]);
  (610257312136821900, [0x5c71745e]);
  (612224588696692400, [0x901a]);
  (612889042968559300, [0x6700]);
  (621227203862464400, [0x517395dc]);
  (623425094534341900, [0x6e56]);
  (625672380119547800, [0x51495e73]);
  (627199127332626600, [0x5df49ad8]);
  (627971331942017700, [0x943594c1]);
  (633550467904859200, [0x83ab]);
  (634373517818510700, [0x52a0]);
  (636040223067031900, [0x671d]);
  (637735178898409200, [0x97d397e9]);
  (639459359541859800, [0x4f26502b]);
  (643904535798943200, [0x4e09]);
  (645739449665762900, [0x77f3]);
  (646669688931994300, [0x54096e236fb3]);
  (650479673555221300, [0x963f]);
  (651455291049757800, [0x91cd]);
  (659623094151184500, [0x7b2c]);
  (666218890930364200, [0x5bcc]);
  (667361760512726500, [0x51675185]);
  (668517842752834100, [0x5b9d5bf6]);
  (670870892493853500, [0x65af]);
  (672068511598525000, [0x7d937ecf]);
  (674507656910940940, [0x836f85e5]);
  (677007787131482700, [0x8036]);
  (678281689709225700, [0x6c5f]);
  (679572030192816450, [0x4e5d53f0]);
  (682203761024553850, [0x666e683c]);
  (684906628263345800, [0x4eac]);
  (687684584674053300, [0x4ee56649664b7d2b]);
  (693483310439088300, [0x4fe1]);
  (694987098175542300, [0x540c66a8]);
  (698064264042217700, [0x611b723189e38cb48d35]);
  (701239133873675700, [0x57fa]);
  (702865185960853700, [0x81ea]);
  (704518116155974800, [0x592a]);
  (706198827987612900, [0x5171]);
  (707908271323542950, [0x9655965d]);
  (709647445594729800, [0x9ebb]);
  (713219253854937700, [0x521b52755b89]);
  (715054167721757400, [0x8377]);
  (716923381022972700, [0x516b]);
  (718828200520042150, [0x629796469678]);
  (722750271835370200, [0x8fbd907c]);
  (724770542567122200, [0x610f]);
  (726832471287395800, [0x4e0051805eb795a995fd]);
  (728937812207179000, [0x52b352de]);
  (731088432729275350, [0x6e58]);
  (735533608986358700, [0x4e3d6e1d9e97]);
  (737832560808828600, [0x822a]);
  (740185610549848100, [0x975e]);
  (742595365707754100, [0x52dd621062dc80dc9996]);
  (745064626966791300, [0x4f0a57ce5e0c]);
  (747596407765220200, [0x83b284ee]);
  (750193956405546300, [0x514b]);
  (752860781113762400, [0x84998d8a91d1]);
  (755600678532573900, [0x5baa61b27a4681f49ed1]);
  (758417766229243500, [0x6606970d]);
  (761316519916568700, [0x57306d1b]);
  (764301816231536900, [0x53e4]);
  (767378982098212250, [0x51b079d18fea]);
  (770553851929670200, [0x4f2f673a6a5f706b9632]);
  (773832834211969400, [0x5ef6]);
  (777222989379537500, [0x54086c888fdc90609ece9ed4]);
  (780732121360664400, [0x53f8]);
  (784368885777751950, [0x534f535457c3592e795e7d717edf]);
  (788142918576036700, [0x51705a0167497a057a0e862d]);
  (792064989891364800, [0x513f51525175632a6cf07f577f85]);
  (796147189343390300, [0x4e4c5965596770cf76f47a7a]);
  (800403150785270000, [0x4e035fae9f8d9f99]);
  (804848327042353300, [0x5f176c348cea8d289633967d]);
  (809500328605842500, [0x4e304e395cad5dba653f65e97d9c7efc8c509b6f9c81]);
  (814379345022785700, [0x7dad7ef48afe8bfa]);
  (819508674461540700, [0x5cb35f0067ec6c496f2279e67dec7f058d6b958b]);
  (824915396588568400, [0x53ef5bbe5bf95c0d66fc72798cd3]);
  (830631237972563200, [0x52175218528958545d07676d7db27f5180af83b1840a99ac9a6c]);
  (836693700154206800, [0x4f9b5a036566845b]);
  (843147552267963900, [0x4e495229530565f666427fa98ca88d27]);
  (850046839416659000, [0x4e076d4e6fdf842c8461]);
  (857457636632031100, [0x4fdd56e2571858a859545c3c730e7375]);
  (865461907399384800, [0x4e8c4f4f4f7353cc5510571f5c1170df715973b073fe82f983f2860b96d9]);
  (874163045098347900, [0x517458f36bbc6bd4767d767e82088c9d8d1d8f1d8f8998db98de]);
  (883694063078780300, [0x5609590f5b815be7675c6c9979d88fdb9032]);
  (894230114644563000, [0x4e3453165f97608962f16559667a677e716474067da07eff81e88d8590ae90f5]);
  (906008418210201300, [0x53845b8b5bc6629a64ab65bd65c568076a197ca47cae7cb57ce782ac]);
  (919361557472653600, [0x4f5b4f5c520753d9655866136c386d2a7d22821e89ba89c98a9e8bed9102915298a898ce]);
  (934776625455379300, [0x4f0f60e06ca76ec47b517bc97c7388e1905391cc96c09ed8]);
  (953008781134774800, [0x585e603b674e679767ef6b636d25725975337e3d928094f697f6]);
  (975323136266195900, [0x4e9453085de85f375f3a60466052637764696602662567316c55726173af74b07530753577e580018fbe8fd0904b9054; 0x90ce93ae954796fb]);
  (1004091343511373900, [0x4e54506553415361537153c253c353cb55ac59d45c045de5623f62c9655165b967f3682a75187532786c7d047ea682ef; 0x84dd85cd8f9b]);
  (1044637854322190400, [0x4e5f4ed94f114f5051b654335434547c548c5723572d575a58055b975e035f906021620f6232660c660e675e67cf6851; 0x6c836cb16d6a6dee6e296eab6f47701f712673bb73e0752876d176e37cbe805696f6978d99d09a7b9db49e649f4a9f50]);
  (1113952572378185000, [0x4e8951565157521a524d525b535a539a53cd558056fa57665b5f5b9e5be65c0f5e865e905e935eab5eec6176627662ab; 0x641c650065e0684268b56fe07121718a722d72b672b972c0731b733675377687771f7d0d7d397dbf7eb37ecd7ef57fa4; 0x886188638d0a8d5e90af92fc94a2961c969496c5])
].
(** prob_emit.go:18938-20927 probEmit, state 132 *)
Definition emit_132 : list (Z * list Z) := [
  (307855069872474700, [0x4e2d]);
  (345095494457202300, [0x5927]);
  (347027408910125100, [0x548c]);
  (369074169554866050, [0x534e83ef]);
  (389064067152221370, [0x56fd570b]);
  (389982106386717500, [0x65b0]);
  (399948854904045530, [0x6c496f22]);
  (401748058936469100, [0x5929]);
  (413739631626477700, [0x91d1]);
  (414200172528395300, [0x7b2c]);
  (418706405837556800, [0x4f5b]);
  (427511356682197800, [0x82f1]);
  (429741211554443300, [0x6d77]);
  (433029998238926900, [0x4f0a]);
  (438602905884097300, [0x57fa]);
  (439571697099557000, [0x4e09]);
  (449693967378730200, [0x6469]);
  (451933092696274750, [0x6297]);
  (461562077865536900, [0x4e07842c]);
  (468755404897340360, [0x7f8e]);
  (470877694577978600, [0x7a46]);
  (485849957409131200, [0x6587]);
  (486539615315037300, [0x5e7f5ee3]);
  (493432723712456100, [0x4eac]);
  (503670589874016000, [0x4e1c6771]);
  (509048796787984300, [0x8afe8bfa]);
  (510577210820521600, [0x5efa]);
  (510797475226755900, [0x7d057ea2]);
  (514275111144630400, [0x6df1]);
  (521370284741858800, [0x897f]);
  (524355581056827000, [0x4eba]);
  (528217064669604900, [0x5317]);
  (528611542498706600, [0x59655967]);
  (530742115766493600, [0x541b]);
  (531417337778222300, [0x5b9d5bf6]);
  (533470798022393100, [0x85cf]);
  (536703686733929100, [0x8499]);
  (536846646014888500, [0x7dad7ef4]);
  (539602440421254300, [0x9053]);
  (539749607482400000, [0x7d0d7eb3]);
  (541682753184230700, [0x5168]);
  (545197247814507600, [0x7533]);
  (545508774546202500, [0x5f00958b]);
  (549001192969809900, [0x5b89]);
  (550138491987036900, [0x60466052]);
  (552285560426724600, [0x798f]);
  (552955579683706600, [0x5370]);
  (553292280338497000, [0x592a]);
  (553630118497659750, [0x9577957f]);
  (556374716158534500, [0x683c]);
  (557423676825636400, [0x6ce2]);
  (557952312417951300, [0x4e94]);
  (558483757424300500, [0x636263db]);
  (561733140771945100, [0x56de5730]);
  (562654806282437600, [0x6e56]);
  (563211910787383100, [0x89e3]);
  (566044961450005700, [0x532f6c47]);
  (567007432787426600, [0x5357]);
  (568763575480421400, [0x6ee16eff]);
  (570350910396050400, [0x9ad8]);
  (571154127565776800, [0x6cf0]);
  (571355943981400500, [0x767e]);
  (572167307458817500, [0x963f]);
  (572371181127802300, [0x71d5]);
  (574850646989124000, [0x8f9b]);
  (575480239834805500, [0x62c9]);
  (576325910836627700, [0x4fdd519c8fb2]);
  (577178794471379850, [0x5fb7]);
  (578255231130095650, [0x795e]);
  (578906699232215100, [0x666e6cd5]);
  (582907232693585000, [0x5973]);
  (584277117129401200, [0x53cc571f96d9]);
  (584507266828229100, [0x5361]);
  (587311188834668400, [0x6c38]);
  (592915578549283200, [0x5341]);
  (593166519709825750, [0x4e308c50]);
  (594430759051343400, [0x72b97336]);
  (596227983291786500, [0x514398db98de]);
  (599119117641228450, [0x671d]);
  (602371436811784500, [0x54688054806f9031]);
  (604599941290728000, [0x8cfd8d5b]);
  (605733097891683000, [0x9d099e26]);
  (606591472260822150, [0x6c34]);
  (607457278535133600, [0x767d]);
  (608038675521675600, [0x65e07121]);
  (611902454792216900, [0x6674]);
  (612815703148544260, [0x6b276b50]);
  (614356565683828750, [0x9f8d9f99]);
  (615606581960251800, [0x73e0]);
  (616554456355706200, [0x4fe165b9]);
  (617511401457321350, [0x5609]);
  (619453210043031400, [0x4e5d]);
  (621100693763382000, [0x7532]);
  (621767362899200900, [0x7ff0]);
  (622775774805863500, [0x754c]);
  (624136340011441300, [0x4e0a]);
  (624479393521120300, [0x5c0f]);
  (626914296422149000, [0x591a]);
  (627621013144458200, [0x5e73]);
  (627976253304895000, [0x54c8]);
  (629771633666554550, [0x6c99]);
  (630498909599462550, [0x5bb6]);
  (630864540719773500, [0x514b5947]);
  (631599838150299500, [0x5e0c6b63]);
  (632713022187183900, [0x5e03]);
  (633086854398244600, [0x8c9e8d1e]);
  (634977269862159850, [0x529b]);
  (635359679506000200, [0x99ac9a6c]);
  (636128914068315800, [0x672c]);
  (636515761746107800, [0x5b8f]);
  (636904111748747600, [0x68b5]);
  (638078293536415850, [0x4e8c]);
  (638472771365517600, [0x767b]);
  (640468845621771350, [0x4e16]);
  (641278566645033300, [0x96c5]);
  (644584652871122100, [0x611b7231]);
  (645005706124756450, [0x5f205f35]);
  (645853168823853600, [0x56db]);
  (648003789345950000, [0x6c5f]);
  (648877157342825500, [0x660e9ea59ea6]);
  (649758220311041000, [0x6c83]);
  (650647115052765600, [0x515a65e56c888ad68bba9ee8]);
  (651094543092257600, [0x5bcc]);
  (651995450086494300, [0x9f4a9f50]);
  (653821984884223600, [0x4e0381f3]);
  (654283879469853100, [0x626c63da]);
  (655682503667327050, [0x7389]);
  (656153092771068300, [0x8010]);
  (657578295041788400, [0x928094f6]);
  (659510722324428760, [0x82d7]);
  (659999720853847900, [0x62a46c118b77]);
  (660491122334090800, [0x5df4]);
  (661979983583465900, [0x7334]);
  (662481237765820300, [0x540c]);
  (662985017168816000, [0x5854]);
  (663491347364470700, [0x4e9196f2]);
  (664511764381894800, [0x5c71]);
  (666062183035491400, [0x641c]);
  (667637018732305300, [0x6d4b6e2c]);
  (669776137730437100, [0x5f5d]);
  (670318144477371000, [0x63927f6e]);
  (671962017111687000, [0x4e0d]);
  (673633365209061000, [0x8def]);
  (675333122845918150, [0x58ee58ef9ec39ec4]);
  (677062272556924200, [0x51ef51f177fd7845]);
  (678821848745962200, [0x77849769]);
  (679415322297943600, [0x57ce]);
  (680012338996594100, [0x661f8fea]);
  (680612941402615200, [0x82cf8607]);
  (681217172848211500, [0x5eb7]);
  (682436700157593300, [0x4e9a4e9e96ea]);
  (683052086715031150, [0x8c9d8d1d964796b4]);
  (683671283739823300, [0x521b5275]);
  (686187139703438700, [0x666f]);
  (686826119513315900, [0x83f2]);
  (687469208546344900, [0x4fc453e45580]);
  (690083736556777100, [0x91cd]);
  (690748190828644000, [0x67ef]);
  (691417089643723600, [0x5a017199]);
  (692090492861858000, [0x67f18fc7904e]);
  (694138345996212100, [0x9752]);
  (694830390280669500, [0x6e05]);
  (697647477977339100, [0x5170862d]);
  (698364326925200400, [0x534f535457238056]);
  (699086351722549100, [0x5e86617673af74b077f3]);
  (699813627655457100, [0x4e497fa9]);
  (701284242394426600, [0x4e4c70cf]);
  (703531527979632450, [0x4e00590d932b9521]);
  (704291987918154400, [0x62106b666c2f6dee]);
  (705058275192711300, [0x6d59]);
  (705830479802102300, [0x601d6d17]);
  (706608693846307800, [0x78f7]);
  (707393011592410400, [0x5de5753596fb]);
  (708183529543121700, [0x8abf8c038d8a]);
  (708980346508039450, [0x53ef7d047ea6]);
  (710593284701027800, [0x50a3]);
  (711409615764943900, [0x5b87]);
  (713062545960064900, [0x88d5]);
  (713899370927116600, [0x65af9999]);
  (715594326758494000, [0x54e55a03]);
  (716452701127633100, [0x9632]);
  (717318507401944600, [0x653f773c901a96c6]);
  (718191875398820000, [0x540997d397e9]);
  (719961833108760100, [0x6d2a]);
  (721763683659027900, [0x5e9461c96d1b]);
  (722676932015355200, [0x7af97cbe]);
  (723598597525847600, [0x6613]);
  (724528836792078900, [0x7d22]);
  (725467810827062800, [0x91ce]);
  (726415685222517200, [0x99d59a7e]);
  (728338821415305900, [0x5e725e796625663e986f]);
  (729314438909842400, [0x6649664b7696]);
  (730299668554143600, [0x539a72ec73687f8c9664]);
  (731294701639460400, [0x637772699b6f9c81]);
  (732299735224810500, [0x590f597d76ca]);
  (733314972371212400, [0x514953cd5de873ed8fd0904b]);
  (735376901091485900, [0x522974647476]);
  (736424031078215400, [0x52c3]);
  (737482242011269100, [0x5b9868c9]);
  (738551770922944000, [0x53d1624b767c9ed1]);
  (739632862533365550, [0x4e59540e5f8c62958d77]);
  (740725769586584500, [0x4e1d516b7d72]);
  (741830753205243000, [0x4ee56b657687]);
  (742948083265055550, [0x623f79d1]);
  (744078038790448900, [0x535555ae660c6cb970df71597279]);
  (746376990612918800, [0x649267497f577f85]);
  (748730040353938200, [0x81ea]);
  (749927659458609800, [0x508857477247]);
  (751139795511844300, [0x5ddd]);
  (754866934991567450, [0x81538d8592f09502]);
  (756140837569310300, [0x7da07eff8461]);
  (757431178052901200, [0x5b595b6b675c6d257164743c74ca8f148f85914d]);
  (758738386209636400, [0x5ef65feb60e0]);
  (760062908884638500, [0x51746c1f7275727d82089806987a9996]);
  (761405210917852600, [0x52a059346e2370ed71b182b1886588dc8fbe9054982d]);
  (762765776123430400, [0x51e4536b65747d2b885b9cf3]);
  (764145108336664000, [0x57c3745e]);
  (765543732534138000, [0x517170897210]);
  (768401069778543600, [0x4e394f1f504951565157539f54086da66f64]);
  (769860949720658900, [0x4f975305632f65367c739f9c9f9f]);
  (771342458299172900, [0x55075916610f65c5662d67976f5e]);
  (772846246035627000, [0x4f7368859636968e]);
  (774372993248705800, [0x62186230771f9102920994a0]);
  (775923411902302400, [0x4e135c088a8d8ba4]);
  (777498247599116250, [0x5cf067406bba]);
  (779098281733760400, [0x9226949b96de9e21]);
  (780724333820938400, [0x723d958095e89694]);
  (782377264016059500, [0x739b746a]);
  (784057975847697600, [0x6d6a76f480f681a0864e]);
  (785767419183627600, [0x53d862347acb81f48b8a8fbd907c9bc99ca49ece]);
  (787506593454814600, [0x4eea51005112524d79cb80e193269526]);
  (789276551164754600, [0x6021677f7a817ba1]);
  (791078401715022500, [0x5c3c90759aa8]);
  (792913315581842150, [0x4f6458f36bbc6df373cd756c757291789707]);
  (794782528883057400, [0x6a2a6a6b]);
  (796687348380126800, [0x8cb48d358eca8f66]);
  (798629156965837000, [0x4ee154385d07608560a663a566d96bdb6fb38305]);
  (800609419695455000, [0x4eeb4f2050b3537178fa8fde902390a3]);
  (802629690427206900, [0x51765fc366766ce188e18d6491cc943594c198469897]);
  (804691619147480500, [0x540a5f696f4176db805a83b1840a884c988d]);
  (806796960067263700, [0x4e7e4f116ee46f0f6ffe78b3]);
  (808947580589360100, [0x4e585f375f3a69ae8363]);
  (811145471261237600, [0x4f174f4e506559226162685168a6773e7d397ecd8857]);
  (813392756846443500, [0x5225522b6b236ccc73de975e]);
  (815691708668913200, [0x516d518851a0529f589e5ca15f0262536c646caa6cb36e216e6f6eec757090bb9130]);
  (818044758409932600, [0x68f16d466f3f842885a9]);
  (820454513567838700, [0x55b756746d8876ce786b7a7a84dd85cd]);
  (822923774826875800, [0x63a16746687f751879e67cfb8a728be591c7924094be]);
  (825455555625304900, [0x52365b555de1800187008fd89084915a9df99e70]);
  (828053104265631000, [0x606963a8677e6cb1]);
  (830719928973847000, [0x4e504ea44ed95bf95c0d659767286a0278c178e885849b25]);
  (833459826392658500, [0x4efd4f0f51f95b5f5c4f62586545751f76d083368a318bb89e7d]);
  (836276914089328100, [0x52b352de6bd379be7db27e2b7f1d7f5182ac83b284ee90fd]);
  (839175667776653400, [0x59965b9c5bc66d3e74097626]);
  (842160964091621400, [0x5173538b53bb58d35b5d5e265e3663e16c426e5871b97aef804a95dc]);
  (845238129958296900, [0x5b815be76f3386ac8706]);
  (848412999789754900, [0x4f4f516c51c662116e96752876c880fa915292fc94a2]);
  (851691982072054000, [0x5207547c5c4b620f623262366237643a651c652f6c907d307ec67f9f7fa582ef834993ae9547968696c0]);
  (855082137239622100, [0x4fa7507454b35c425c6460126768694a6df77a0083ab8ecc8f6890099078]);
  (858591269220749200, [0x535a54b8629167086cbb6e9089448fd9901992f8952f]);
  (862228033637836700, [0x51b7537754c056fa5b9e5be6620a769380008fd1]);
  (866002066436121300, [0x51c96dbc78987a3b8d6b8ef88f7495a995fd96cd]);
  (869924137751449500, [0x4f5c51b25362611f62d6690d706b76e777017ca47cb57f8a80be814e885d89c089c29759975c9f529f7f]);
  (874006337203475000, [0x4e195206540d67096db2732a740674e67a57820d83f185af87768c6c8edf8f6f916a]);
  (878262298645354600, [0x504f605062936302639b68076a198d1b8d63938295419d3b9e3f]);
  (882707474902438000, [0x4f8651cc53475f255f4c66dd676568656a4b7761781678da80af80c3827a837785dd8db39633967d]);
  (887359476465927200, [0x5410695a6a216d016ed16f547a337a697d147eaf82b3932294b19762]);
  (892238492882870400, [0x4ebf4fa8509950d15104514653a6585159075e9a5ec8620862dc684268506eda6efe77ed8a558bc4]);
  (897367822321625600, [0x4ed35009542f555f5c0167cf6f8470b97814786c79658c378ca88d2798fc99729ce59e1f9ede]);
  (902774544448653000, [0x4f9d529d52f853c253c353cb54115706571359545c115dee62d3673a674e67a26a1e6a5f6c146c236c286f587c988840; 0x89e689f88cea8d288f1d8f89918797329811987d]);
  (908490385832647900, [0x51b051fa5e155e385e905eec65397cd67e617ee3900f928594dc]);
  (914552848014291400, [0x5f9762bd6d4e6fdf73bb92c1946b94dd9d5d9e45]);
  (921006700128048500, [0x51ac52dd542b5b665b785fae5ffd603b627f63a7657267d36eb47e3d80a580dc87188cbf8d388fc5]);
  (927905987276743700, [0x4e344ea75211585e5c2465f66642671b6b4c6b646c5d707073ab7522776b785d81e887af87b3898f89c48fc8906e9081; 0x9d289e2d]);
  (935316784492115800, [0x4e084eff51dd537853f05510554657f758eb5fc5626764016416644764f168666a3a6c30718f72d77dda7ebf88c188c5; 0x88dd8a188bb08cc78d448f498f6c9396950197f69810982498849890]);
  (943321055259469600, [0x4e734fca50ac513f515251cf53f6559c560e59575b6360ac61f862db63d265cb6d416e1b707f71e67b517bc9803680c6; 0x81bd84498b498b808bc18bfb8f388f938fdc9060959395f49655965d967698a898ce9bae9c9c9f13]);
  (952022192958432500, [0x4e544eae4fc3514552185289534355ac5e7b5e8a6c926ca16d6971df725b72817d197eb88132822a836f842585e589d2; 0x8aa08bda8cbb8d398fb0900a905c91dd9488964696789b5a9c7c9d6c9e4f]);
  (961553210938865000, [0x4e244e3d4e954ee34fee5169517d53165b575f5262986355669669fd6b786d3b6dec708e70ef737873c076f877eb77ef; 0x788e78b17c897d337ec58155817e832887e087f98ddf918b958395ea975697f39a309e7c9e97]);
  (972089262504647600, [0x4f2f526a53f254735a465b7d5de25e955ea76b216f5b6f5c70ab74dc74f7756a794880cc80fd822c865a865b8a988bf1; 0x915e923494c397749802987699b39a70]);
  (983867566070286000, [0x4f18512a535654aa55895830586b59a8629a62a263a2643664ab676d679c68116821684c68b36a396bcf6c7d753b756b; 0x76d176e381508272846b8ce38cfc8d2d8f158f7b91c991ca91cb9274945196cc96f7]);
  (997220705332738300, [0x4e014f1a4f3a500d50e7517b5251528d530853d65831594b596e5de65e7462a562ab6307632464e06577660a6703672a; 0x674367b86b0a6bd56c226c2b6d6e70ad70bc7149738b751c756276d4795b7bb17d217eba7fd48015801981a889868b66; 0x901f927892ea93df94f094f294fa978b990a9db49e649e9f]);
  (1012635773315464000, [0x4e0b4e664fb550cf5148522e52cb52f3536454ed56fe5716575757f9584a58575899594859515b975c385c4d5d4c6000; 0x61f762d266f868ad6b676cdb6ce86d826da86f326fc07246725976ae78027a7f7d667de97ed97f138089808c836085ba; 0x86118721881f886b8f098f7d8fdb8ff7903290a6927b92c594ec950c99f19a869e759ed89f3b]);
  (1030867928994859500, [0x4e454f534fae51675185523a55b957665939593e5b8c5cb7608962e6632a638864d2651466fc67f3699b6bd46d78701b; 0x70c270c87119721b75c5767876d6783b7931798579aa7c927d717d9c7dec7edf7efc7f05828d82f9831a8364840c8463; 0x847784cb860b8c6b8cbc8d348dd18f3b8f90944494f8965096be96c196e3971c98fe99709ad4]);
  (1053182284126280500, [0x4ed65353538453d45421544b567656e057085bb95d475f155f18602560c5624e6269628a631664f46556659c65ad65b7; 0x65bd66ff673567ab67b667e068a868c068ee69536a616aa26ab86c296c2c6e2f6ec76f0270e4710a72617b807c217d50; 0x7de87ed37f167f9a80058033805e80a180ce812b8131814c819c827e845b84b886508a008a088ba18c6a8d0f8d629183; 0x9223926c9291949994bc94e395fb963b96c498df9b779c7f]);
  (1081950491371458500, [0x50a85132514d529e52b252c1534a53f353f854625496552f59155931598259bb5b505ba25c1a5cab5e105e335f175f84; 0x5f915faa61cb6212627e63ba647b65e966f3676167956863689d6a946cf86dc76dcb6ef47018707570f77126714e72b6; 0x72c073a9740375d47654787c7897793c79ae79bb79fb7a777aae7c077d817d937de37e697e8f7ecf7ed17ef37f187f20; 0x7f69829d83c185e4871c88688b1d8b588bc68c228d0a8d5e8e448fa6900190a292379376947294b4953695769648964d; 0x967396e29748978d9905997c9d3f9e3d9ebb]);
  (1122497002182275000, [0x4f555047528852a852a952d5533a534054d1552e555e556456f4570d575057ab584c588a591c59385b855ba15bb35bbe; 0x5bd25be95c315c3e5c555c815cb35e025fcd5fd762476276644464a4651d653b65706578660666f266f4670b67176750; 0x679a67dc67ec68496ac36b626b726b8b6b986c2e6c616cf56cfc6d5c6d666dd86e176e296eab6ef26f516fef709670f9; 0x7167719471c9755c76fc77e578a7793e7a057a0e7ae57b497bc07bee7c437cae7cd57cdf7ce77d177d277d8f7dca7dde; 0x7eb17ee57f0e804c807780b2821282378282829082a682c4835e83dc8418843d852c854e85fb860687ba89108a668a69; 0x8a878bd58bd78c468caf8cd38d2e8ecb8f678ffd9006916f925b934b934d93a294a894c59505954095f99662969c96cf; 0x96db97ed983b989198ef996d9a579a8c9b27]);
  (1191811720238269600, [0x4e184e1a4e384e924ec14f384f694fa650755076515451805199519b51c0521d522852375254525d526552d25339533b; 0x5373542c543954a854cc56ed57125742582158c158f05a5a5a745b305b585b755b9a5bb05bbd5beb5bec5c045c405df1; 0x5dfe5e935e9e5eab5f815f905fb560f06167626d62e862e962f762fc634f63d0641364a564c764e6653e665266ec66f9; 0x671467316742675f678167aa67e568fa696d6975699569cd69f26a316a596afb6bd26c276ca56cb86cee6d0b6d4a6d53; 0x6da46de86ecb6ecc6fc16fc3701d704c706f70e7718a71c871d272487266729b736f73e974697529752c7559758f75f0; 0x766b7672768276d876e479817b147b467b4b7bc47d427d797df47e317e417e967ea47eb57ec37ec87ee27f387fa48072; 0x807d8087809d80f18106811181668170826f830283038304835483b985218559858f86cb884d88708a0a8a9e8ac78aee; 0x8b6f8baf8bd18bed8c088df38ecd8ed28f2a8f698f6e8fb990009003908a90ae90c190d190e890f5912d917191759189; 0x91ab91ac92a593c8947d94bb94f194fe96dc970d971e9739977697cb97dc97e697ec9b319b549bca9ca89f0e9f90])
].
(** prob_emit.go:20928-21004 probEmit, state 133 *)
Definition emit_133 : list (Z * list Z) := [
  (212227093917015440, [0x54c8]);
  (262839804215459070, [0x5495]);
  (281698921196214070, [0x625164b2]);
  (285872881813490580, [0x5583]);
  (306561184857733560, [0x563f]);
  (311098045360718600, [0x54af]);
  (315409057726091470, [0x55e1]);
  (333201652258183150, [0x9686]);
  (334259863191236840, [0x54d75629]);
  (340289086216848840, [0x54c7]);
  (346705280638577440, [0x549a]);
  (352279478939400950, [0x8f5f8f70]);
  (368120079479140600, [0x6026]);
  (379991710163078840, [0x560e]);
  (386054172344722300, [0x547c]);
  (386951039342998330, [0x5657]);
  (388769271251317400, [0x53ee]);
  (391560150063025030, [0x5494]);
  (398392074460772800, [0x53fd5630]);
  (403574581247231400, [0x567c]);
  (427497550153814700, [0x55276ef4]);
  (440465332484668100, [0x4e01]);
  (450150315083659800, [0x5471]);
  (453598932690776700, [0x561f]);
  (459005654817804300, [0x5431]);
  (464721496201799140, [0x6c69]);
  (466701758931417100, [0x55d6]);
  (470783958383442700, [0x55f7]);
  (475039919825322250, [0x556a]);
  (479485096082405600, [0x556755805616]);
  (481784047904875600, [0x54bf]);
  (489016114062838100, [0x542754a3]);
  (494145443501593200, [0x52885601]);
  (502369253325290400, [0x542d54d0]);
  (524683608456711300, [0x6dd9]);
  (532094405672083600, [0x5f537576]);
  (540098676439437200, [0x5ffd]);
  (548799814138400150, [0x55b3]);
  (553451815701889400, [0x98bc98d5]);
  (563460161557587700, [0x4e525541]);
  (587099039364010800, [0x5600]);
  (627645550174827200, [0x5410]);
  (649959905306248100, [0x68b56c996dc5]);
  (663313044568700400, [0x523754fc]);
  (678728112551426200, [0x523a54aa]);
  (696960268230821700, [0x545656a66f7a93d794ff]);
  (719274623362242700, [0x53ed54e76cfc6f51]);
  (788589341418237200, [0x525d5265]);
  (857904059474231700, [0x54b4963f9aa8])
].
(** prob_emit.go:21005-21056 probEmit, state 134 *)
Definition emit_134 : list (Z * list Z) := [
  (171564310365047130, [0x901a]);
  (212550501256454700, [0x6839]);
  (213032986647608970, [0x5bf95c0d]);
  (231578985799457550, [0x4e3a70ba]);
  (241330007808997300, [0x968f96a8]);
  (257738361167368200, [0x7d937ecf]);
  (263526912504546960, [0x517395dc]);
  (274654123580744040, [0x6309]);
  (328059403955961800, [0x9664]);
  (380776367770699300, [0x91dd9488]);
  (382023632655950100, [0x81f3]);
  (414285152851928800, [0x81ea]);
  (437534034403126200, [0x57fa]);
  (476422343954328900, [0x6cbf]);
  (478822843281054700, [0x51ed6191]);
  (494692457500948000, [0x92749451]);
  (509125273536421900, [0x9806987a]);
  (541465289041808000, [0x4f9d]);
  (545547488493833500, [0x8fde9023]);
  (555915331441317700, [0x6bcf]);
  (557824191097569900, [0x8d81]);
  (559117312564794760, [0x5f537576]);
  (574063488795740600, [0x671d]);
  (580836910603716100, [0x501f]);
  (591044063681953000, [0x5411]);
  (595625017285082400, [0x51b2885d]);
  (598799887116540500, [0x9760]);
  (649346255179000900, [0x672c]);
  (652607413737877100, [0x53ca]);
  (653718536280384100, [0x8f038f83]);
  (700607229734950200, [0x4e58]);
  (711940098265650500, [0x7de37f18]);
  (725866304999001200, [0x4ee5]);
  (743411172749620500, [0x6bd4]);
  (964512962696476000, [0x8fb9908a]);
  (1011513325621049700, [0x56e0])
].
(** prob_emit.go:21057-21192 probEmit, state 135 *)
Definition emit_135 : list (Z * list Z) := [
  (153321105485427280, [0x7f8e]);
  (160579139882135860, [0x5e73]);
  (220241334020901030, [0x516c]);
  (278969937931844570, [0x6beb]);
  (301509772301974440, [0x79cd7a2e]);
  (310478042595834100, [0x7cfb]);
  (337532621616713470, [0x5343]);
  (338100574461873600, [0x5929]);
  (359523874689989800, [0x7acb]);
  (369367881971315050, [0x76ce]);
  (410640044863914100, [0x82f1]);
  (421269510728876500, [0x5398]);
  (432744536329642900, [0x5206]);
  (433164705015013000, [0x4e2a500b]);
  (471421833839244100, [0x99ac9a6c]);
  (479786836767936600, [0x5c425c64]);
  (482853516607233900, [0x4f1a6703]);
  (484247267391612000, [0x96359663]);
  (484951495654153300, [0x6d77]);
  (491901275103845500, [0x5e74]);
  (499370364364004350, [0x514b]);
  (527460602910644650, [0x725b]);
  (536506313926169700, [0x5146]);
  (538901638028419100, [0x80a1]);
  (541978803895094400, [0x5bb6]);
  (543871604883646300, [0x6b65]);
  (556048792105407900, [0x4eba]);
  (561215993159840000, [0x52a0]);
  (566664811688246900, [0x6bdb]);
  (569094080945151400, [0x54689031]);
  (577646298288967600, [0x53e5]);
  (581283062706055100, [0x5fae]);
  (583152276007270400, [0x6cd5]);
  (606414505534145750, [0x8d6b]);
  (611293521951088900, [0x4f0f7126]);
  (615115643233108700, [0x5c45]);
  (648762866895230000, [0x5361]);
  (650597780762049600, [0x5f00958b]);
  (652466994063264900, [0x666e]);
  (660314155607414400, [0x6fb3]);
  (668829936441445100, [0x4e07842c]);
  (673376173849120800, [0x5927]);
  (680608240007083400, [0x8f298f88]);
  (683140020805512500, [0x514988e191cc]);
  (685737569445838500, [0x58f08072]);
  (691144291572866100, [0x5c14723e]);
  (693961379269535700, [0x7c07]);
  (709376447252261600, [0x514857086735]);
  (719912498818044200, [0x6b217d447ec4]);
  (723686531616328900, [0x77ed]);
  (735946763825562100, [0x5b8974e6]);
  (740391940082645500, [0x70b99ede]);
  (745043941646134700, [0x5757584a]);
  (755052287501833100, [0x65e5]);
  (760459009628860600, [0x84b2]);
  (766174851012855500, [0x4e0b]);
  (778691165308256000, [0x4e1b53e2573a5834]);
  (785590452456951200, [0x62366237]);
  (793001249672323400, [0x561f574e6444651d8fc7904e]);
  (819237676119072600, [0x517067b6862d]);
  (829773727684855100, [0x536276e7]);
  (854905170512945700, [0x4e00]);
  (870320238495671600, [0x534e54c156e257185e0283ef]);
  (888552394175067100, [0x523b5428567868376a2391cd]);
  (939634956551666200, [0x56fe57166d4189d2]);
  (980181467362482600, [0x4e1d514353f059045938676f6bb572477d7286558a87]);
  (1049496185418477100, [0x4f26502b5217575a58055e935eab6b276b50745e822a8258])
].
(** prob_emit.go:21193-21194 probEmit, state 136 *)
Definition emit_136 : list (Z * list Z) := [
  (0, [0x5146])
].
(** prob_emit.go:21195-21195 probEmit, state 137 *)
Definition emit_137 : list (Z * list Z) := [].
(** prob_emit.go:21196-21275 probEmit, state 138 *)
Definition emit_138 : list (Z * list Z) := [
  (154603156382289870, [0x8fd99019]);
  (257980441657023270, [0x90a3]);
  (263125092861802170, [0x6211]);
  (269431170029454000, [0x4ed6]);
  (277650588098913080, [0x5176]);
  (280251227212854470, [0x81ea]);
  (296665825361707400, [0x4ec0]);
  (297255620643661840, [0x5404]);
  (347927956820875830, [0x6709]);
  (350797836425914870, [0x600e]);
  (354092661716877280, [0x6bcf]);
  (361188420974217860, [0x5982]);
  (362397544644239880, [0x672c]);
  (381345788271501100, [0x6b64]);
  (399710528318387450, [0x4f60]);
  (400284759588158200, [0x4e4b]);
  (431875873727540200, [0x5927]);
  (442185293878438800, [0x5b83]);
  (445938794060590700, [0x4e00]);
  (452230176601647700, [0x4efb]);
  (453537384758383000, [0x54ea]);
  (455775155789712300, [0x5225522b]);
  (457253925805150200, [0x591a]);
  (457552322147411500, [0x4e3a70ba]);
  (458817923903368300, [0x67d0]);
  (469438079763427300, [0x8a728be5]);
  (471335078891668100, [0x54b1]);
  (531596747148788500, [0x5979]);
  (538851008981297000, [0x4f55]);
  (568540535143547600, [0x540e5f8c]);
  (603610755841704000, [0x524d]);
  (631950696907682000, [0x5f7c]);
  (637140023348386800, [0x4e245169]);
  (682725092630540300, [0x8af88bf8]);
  (687326388539262800, [0x751a]);
  (688950409241544100, [0x4e8c]);
  (753830903343187850, [0x8ab08c01]);
  (762905134858015100, [0x4ffa]);
  (774650462331021500, [0x4e09]);
  (797560057315172000, [0x51e05e7e]);
  (820061153864072500, [0x65c1]);
  (827328272893808500, [0x540c]);
  (843668883873950300, [0x8001]);
  (862494513105327300, [0x5728]);
  (863211362053188600, [0x8db3]);
  (875440319829016000, [0x82e5]);
  (878746406055104700, [0x548b]);
  (898162007499200500, [0x60a8]);
  (902329277139257300, [0x4e2a500b]);
  (922278213180889300, [0x7de37f18]);
  (923585421337624600, [0x5565]);
  (942345282727104400, [0x4f599918]);
  (955925436843010500, [0x6d127051]);
  (963476192093825100, [0x9119]);
  (985301548695826800, [0x543e]);
  (1047554510030426100, [0x5df1]);
  (1052206511593915500, [0x4ea6]);
  (1148714601198274100, [0x662f7237723a]);
  (1177482808443452100, [0x864e]);
  (1195714964122847600, [0x8cb48d35]);
  (1246797526499446600, [0x655d]);
  (1356658755366257700, [0x5c14723e])
].
(** prob_emit.go:21276-21276 probEmit, state 139 *)
Definition emit_139 : list (Z * list Z) := [].
(** prob_emit.go:21277-21279 probEmit, state 140 *)
Definition emit_140 : list (Z * list Z) := [
  (11261887810814913, [0x5176]);
  (223952695702690900, [0x60a8])
].
(** prob_emit.go:21280-21282 probEmit, state 141 *)
Definition emit_141 : list (Z * list Z) := [
  (0, [0x8fd99019])
].
(** prob_emit.go:21283-21541 probEmit, state 142 *)
Definition emit_142 : list (Z * list Z) := [
  (252197953270652500, [0x56fd570b]);
  (259208094331778850, [0x5fc3]);
  (295098600029291270, [0x897f]);
  (304658580634126830, [0x8eab]);
  (307939276022544340, [0x4e00]);
  (322909239412844200, [0x4e1c6771]);
  (331321446959521700, [0x5730]);
  (332563698959377400, [0x624b]);
  (344974091111222720, [0x6d77]);
  (352329291038783540, [0x958095e8]);
  (358421766001957430, [0x5883]);
  (365154027486575260, [0x5bb6]);
  (367034960682324900, [0x7db27f51]);
  (398774904158687750, [0x813881c9]);
  (400663007050303600, [0x5f537576]);
  (406893395383919100, [0x57ce]);
  (408535373797817200, [0x5e02]);
  (409821565162058000, [0x5c71]);
  (418194269033527400, [0x51675185]);
  (426808199959718500, [0x8def]);
  (437740199405080600, [0x6c34]);
  (439426844604994800, [0x73b073fe]);
  (457975957760518200, [0x5c4b]);
  (461464683660562300, [0x7a7a]);
  (468406245170487300, [0x5934982d]);
  (472121342663803300, [0x773c]);
  (475865842712163400, [0x4f539ad4]);
  (478053609877249600, [0x8857]);
  (479696839339957700, [0x7a97]);
  (484360112319148700, [0x8fb9908a]);
  (484982004870714340, [0x76d876e4]);
  (486048179912190300, [0x5634]);
  (494737854322323100, [0x524d]);
  (495289579859798600, [0x684c]);
  (503727014260345000, [0x6df1]);
  (512777622969725200, [0x6b64]);
  (514438790736414800, [0x8239]);
  (516897583531689500, [0x697c6a13]);
  (520302539261706000, [0x8fdc9060]);
  (520391388667817500, [0x5bab5bae]);
  (522185158736484300, [0x5929]);
  (525310413086894700, [0x53e3]);
  (525497329029165100, [0x623f]);
  (530189429503837900, [0x573a5834]);
  (531770490106502200, [0x53f0]);
  (536669428826529500, [0x5ba4]);
  (537088716652533100, [0x600061f7]);
  (541271632072172700, [0x9762]);
  (543262848304184050, [0x5317]);
  (544726014530990450, [0x58997246]);
  (547251981206914300, [0x8fd1]);
  (555236874006956100, [0x519b8ecd]);
  (558436123181105200, [0x6cb3]);
  (558957636749016000, [0x8eca8f66]);
  (560538697351680250, [0x5cb8]);
  (565020098930659500, [0x4e16]);
  (570295734174590600, [0x5c9b5cf6]);
  (570883107375800000, [0x6e56]);
  (573267721113083350, [0x80f8]);
  (573721236629622500, [0x68116a39]);
  (575556150496442150, [0x90ca]);
  (582422374328585400, [0x9014]);
  (589795035142300500, [0x6c5f]);
  (596225165277533350, [0x9ad8]);
  (604530331037921300, [0x5916]);
  (610258301720251100, [0x8033]);
  (610695939180230950, [0x4e0a]);
  (612242931357444100, [0x7ad9]);
  (617266818808807100, [0x4e619109]);
  (623300011269767500, [0x5357]);
  (626074464133133000, [0x6797]);
  (628403159271012100, [0x80a9]);
  (628928094859626400, [0x534a]);
  (629720701386868500, [0x96469678]);
  (632136926314776500, [0x515a9ee8]);
  (640345209393624600, [0x56ed5712]);
  (641234104135349200, [0x72f17344]);
  (642130971133625200, [0x9694]);
  (653909274699263600, [0x592a]);
  (661268110365012400, [0x4f4e]);
  (664972237533047400, [0x4e0d]);
  (665729816913893100, [0x5bf95c0d]);
  (669606271258917600, [0x533a5340]);
  (672006386468871850, [0x673a6a5f]);
  (674051447516000900, [0x68656a4b]);
  (674881327797470500, [0x96359663]);
  (675718152764522100, [0x91ce]);
  (678271482965038600, [0x6751]);
  (678703449079490300, [0x58c1]);
  (681335179911227600, [0x5e55]);
  (684038047150019500, [0x517395dc]);
  (684955484777623600, [0x5de6]);
  (687286592664468400, [0x8179]);
  (687759406784062900, [0x9662]);
  (691624622227490900, [0x9053]);
  (692614729325762000, [0x62366237]);
  (694624847257870750, [0x585e]);
  (695133754208617900, [0x654c6575]);
  (696676201241181000, [0x53f3]);
  (705896820627854500, [0x5bfa]);
  (709365376426643400, [0x82318259]);
  (710548822191343700, [0x6587]);
  (720557168047041950, [0x4e95]);
  (723901961453796000, [0x85cf]);
  (724584557960836000, [0x4e6666f8]);
  (727362514371543500, [0x67b6]);
  (728069231093852750, [0x7701]);
  (740917063571165900, [0x6bbf73ed]);
  (745032870820516600, [0x7530]);
  (746727826651894000, [0x67956c9f6e9d]);
  (750206438260435500, [0x5df7]);
  (758506130217532350, [0x56ca]);
  (766510400984886000, [0x6d0b]);
  (767557530971615500, [0x515c]);
  (769685270816344000, [0x96349670]);
  (771859269479984600, [0x7247]);
  (772964253098643100, [0x51b0]);
  (777510490506318900, [0x582496f6]);
  (783500304664425700, [0x814b]);
  (786000434884967450, [0x98719885]);
  (788564677946301200, [0x71df7dda7ebf8425]);
  (789871886103036500, [0x4e2d]);
  (792538710811252600, [0x7095]);
  (798095695926733700, [0x575d58e9]);
  (800994449614058900, [0x5927]);
  (805506493142106000, [0x6821]);
  (818640093348214600, [0x8d85]);
  (822211901608422500, [0x5cad5dba]);
  (829762656859237000, [0x6cbf]);
  (833763190320607000, [0x888b]);
  (842278971154637500, [0x676f7f508155]);
  (851588013461238800, [0x68da]);
  (854057274720276000, [0x4e5d820d]);
  (859186604159031000, [0x7709]);
  (864593326286058600, [0x7cfb]);
  (867410413982728200, [0x532f6c47754c]);
  (873294463985021500, [0x62d08fbd907c98389888]);
  (882825481965454100, [0x51e1]);
  (886215637133022200, [0x4ed6]);
  (897135566329521300, [0x9f3b]);
  (905139837096875000, [0x5c975d176700]);
  (909395798538754700, [0x5b9e5be6]);
  (913840974795838000, [0x644a6524]);
  (918492976359327300, [0x4f2450b7539f]);
  (923371992776270500, [0x57df8f448f96]);
  (928501322215025500, [0x7bb1]);
  (945686347907691500, [0x78147bee7c43]);
  (952140200021448600, [0x5858669780cc]);
  (959039487170143800, [0x4e0952066c60964c]);
  (966450284385515900, [0x655d8237]);
  (983155692851832600, [0x4e9196f2]);
  (992686710832265000, [0x96ea]);
  (1003222762398047700, [0x5d16]);
  (1015001065963686000, [0x4f1a6703]);
  (1028354205226138300, [0x540e5b875f8c6eaa89d2]);
  (1043769273208864000, [0x516b537767dc6ac370897210]);
  (1062001428888259500, [0x8f3b8f909577957f961f968a]);
  (1084315784019680600, [0x4e1b53e2]);
  (1113083991264858600, [0x603b7e3d]);
  (1153630502075675100, [0x516d5c465c4a753b756b]);
  (1222945220131669500, [0x4e18576180e1])
].
(** prob_emit.go:21542-21959 probEmit, state 143 *)
Definition emit_143 : list (Z * list Z) := [
  (231419917217661240, [0x4eca]);
  (267224608606510250, [0x73b073fe]);
  (272554516760265960, [0x5f537576]);
  (283661149990658720, [0x76ee]);
  (316088293624305200, [0x660e]);
  (347232231450428900, [0x6628]);
  (347728775765399700, [0x4e0a]);
  (359723656161484050, [0x8fd1]);
  (361018481985860570, [0x672a]);
  (361852881451632640, [0x8fc7904e]);
  (372390893013887370, [0x5e74]);
  (383545167688369840, [0x540e5f8c]);
  (392898847662151240, [0x5982]);
  (399359116407820470, [0x54689031]);
  (412404720830247900, [0x4e0b]);
  (421891882366735100, [0x6b64]);
  (424004064869663300, [0x65e9]);
  (424053338090665100, [0x53bb]);
  (429940375129221300, [0x665a]);
  (435991947504801500, [0x4e2d]);
  (438998562551722400, [0x590f]);
  (439457454370390200, [0x53e4]);
  (444186143054202100, [0x672c]);
  (444306770330590250, [0x5143]);
  (457009673131776800, [0x4e00]);
  (460024044647880100, [0x6e05]);
  (460377776887965150, [0x773c]);
  (468391891434550440, [0x516c]);
  (476909378622188900, [0x6700]);
  (477889641337954900, [0x521a525b]);
  (481500348752596700, [0x591c]);
  (486588220412434200, [0x65e5]);
  (490246593049827700, [0x5e73]);
  (494774316396020800, [0x51ac]);
  (496998127713837900, [0x5317]);
  (499307380768106500, [0x5510]);
  (500218070074353000, [0x897f]);
  (501528519144377900, [0x9996]);
  (501564176124609500, [0x5357]);
  (507250652012850600, [0x6708]);
  (508313280607716900, [0x6b21]);
  (511688964851949100, [0x5341]);
  (517038700676064700, [0x4e1c6771]);
  (521247610957989100, [0x524d]);
  (526233066980510900, [0x6625]);
  (528728575408142800, [0x5f80]);
  (535354154985849300, [0x4e94]);
  (537578715880581300, [0x5b8b]);
  (541701397281406650, [0x7bc08282]);
  (546335641586570000, [0x5c065c07]);
  (555688247387652300, [0x521d]);
  (557856186118556300, [0x6c496f22]);
  (572098859077913700, [0x4ee5]);
  (574658413796810000, [0x5348]);
  (578048568964378200, [0x62186230]);
  (580531241084316900, [0x79cb]);
  (581399096629941700, [0x4f1a6703]);
  (587694595583134400, [0x5148]);
  (596787754999414850, [0x767d]);
  (603278582524944700, [0x4e09]);
  (603476015955316500, [0x516b]);
  (610643873482421300, [0x4f8656fd570b6765]);
  (611496757117173300, [0x4e5d]);
  (618365458549159600, [0x7b2c]);
  (619634950497284450, [0x968b]);
  (620100609080279600, [0x4e16]);
  (621274331474852100, [0x77ac]);
  (623301830860993200, [0x9ec39ec4]);
  (625125589615971300, [0x4e8c]);
  (628621576098317200, [0x661f]);
  (633971840919681500, [0x79e6]);
  (636827235454590000, [0x4ece5f9e]);
  (637519279739047500, [0x5546]);
  (638076384243993000, [0x4e03]);
  (638777157959733400, [0x6b63]);
  (640622490663820350, [0x4e8b]);
  (645165396348495200, [0x9686]);
  (648519369260480300, [0x5609]);
  (649453955502304050, [0x56db]);
  (655086981146576100, [0x4e07842c]);
  (660705479974456500, [0x751f]);
  (661232259067942400, [0x516d]);
  (664634556789104500, [0x7fcc]);
  (664999520697859400, [0x9806987a]);
  (667030984832977400, [0x6df1]);
  (667968198815863600, [0x51cc]);
  (669486254533565300, [0x65e7820a]);
  (670061519782510300, [0x5176]);
  (672790734011311000, [0x4e0d]);
  (672988558012521600, [0x534a]);
  (679746502381502000, [0x508d90a3]);
  (680597571348292900, [0x6614]);
  (689065880071296700, [0x9ece]);
  (700640902021992900, [0x8001]);
  (701427275668014400, [0x65b9]);
  (702485486601068100, [0x5239524e]);
  (702751798343016400, [0x5047]);
  (705454665581808450, [0x57238056]);
  (706556605106769450, [0x671f]);
  (707391102299987600, [0x51b0]);
  (709365778593471000, [0x5e7c]);
  (711963327233797000, [0x4e7e]);
  (714031347757550900, [0x65e07121]);
  (716754662803386800, [0x5929]);
  (718300288627055900, [0x662f]);
  (721144082159109350, [0x5927]);
  (723413223279316400, [0x7ae5]);
  (731965440623132600, [0x5373]);
  (733767291173400400, [0x91cd]);
  (741318046424214900, [0x5ba3]);
  (742899107026879200, [0x5a5a]);
  (743699111293586800, [0x65b0]);
  (744911247346821300, [0x89e3]);
  (746550628324388900, [0x6d2a]);
  (748217333572910100, [0x5c816b72]);
  (750340555583487500, [0x800c]);
  (752509838044613500, [0x96e8]);
  (753834360719615500, [0x6c5b]);
  (760258587592450900, [0x814a81d898ef996d]);
  (764123803035878800, [0x8fdc9060]);
  (767632935017005800, [0x9152]);
  (769175382049569000, [0x7aef]);
  (770217058135394600, [0x9808987b]);
  (771269699434093300, [0x8f498f6c]);
  (775594697813475000, [0x98039877]);
  (780115241490279700, [0x664c]);
  (784245622104403200, [0x5b559752]);
  (786069380859381400, [0x672f8853]);
  (786684767416819100, [0x672b]);
  (787927019416674850, [0x598a]);
  (794380871530431950, [0x65f66642]);
  (795049770345511700, [0x5f7c]);
  (795723173563646000, [0x7acb]);
  (803446308357245000, [0x5efa]);
  (804178912366452400, [0x91d1]);
  (807164208681420400, [0x76db]);
  (807924668619942400, [0x4f8f5c0f]);
  (809463160503890400, [0x6210]);
  (815042296466732000, [0x540c6691]);
  (821824556100608000, [0x9664]);
  (826309612717143200, [0x6c38]);
  (828161517493867000, [0x5f18]);
  (831971502117094000, [0x6649664b]);
  (834927382341248500, [0x67af]);
  (835932415926598600, [0x9707]);
  (839009581793273900, [0x6ce5]);
  (841114922713057200, [0x611f77f38fbd907c]);
  (848853589074599100, [0x5bd2]);
  (850009671314706800, [0x6f5b6f5c]);
  (851179275291025800, [0x864e]);
  (857241737472669400, [0x55e3725b]);
  (866398456825218400, [0x62c2]);
  (867777789038452000, [0x513f51528ab28bfe9053]);
  (869176413235926000, [0x4e2451696714]);
  (872033750480331600, [0x82b1]);
  (874975139000961000, [0x65e6884c]);
  (876478926737415000, [0x731b7a057a0e]);
  (878005673950494000, [0x8cfd8d5b]);
  (881130928300904300, [0x5934982d]);
  (886009944717847600, [0x4e2556b466ae]);
  (887690656549485600, [0x53d1767c]);
  (891139274156602600, [0x5fd7]);
  (892909231866542700, [0x6c11]);
  (898415209584845400, [0x5b50]);
  (902261837667624900, [0x4ef2]);
  (904242100397242900, [0x5b75]);
  (906262371128994800, [0x57fa]);
  (910429640769051800, [0x548c65e2]);
  (912580261291148000, [0x58ee58ef6668]);
  (914778151963025500, [0x4ea77522]);
  (919324389370701300, [0x706f71c8]);
  (921677439111720700, [0x96ea]);
  (924087194269626800, [0x4ea4]);
  (929088236327093000, [0x4f0f5c01793c79ae]);
  (931685784967419000, [0x590d]);
  (934352609675635100, [0x53cc96d9]);
  (937092507094446600, [0x51b76ee16eff959295f2]);
  (939909594791116200, [0x5b896062]);
  (942808348478441400, [0x570657135f00958b]);
  (945793644793409500, [0x60c58c37]);
  (955324662773842100, [0x4e455df2]);
  (958714817941410200, [0x600061f76bb7]);
  (969634747137909300, [0x6cfc6f51]);
  (973556818453237400, [0x6392]);
  (977639017905263000, [0x6301]);
  (981894979347142500, [0x971c]);
  (986340155604225900, [0x60ca658b663c665d9a5a9f4b]);
  (990992157167715200, [0x7d557edd]);
  (995871173584658500, [0x4f11]);
  (1001000503023413500, [0x5d075fcc]);
  (1006407225150441100, [0x59248292]);
  (1012123066534436000, [0x65706578]);
  (1018185528716079300, [0x52ab54119f20]);
  (1024639380829836600, [0x970e]);
  (1031538667978531600, [0x5bb065f1]);
  (1038949465193903900, [0x52b352de5bc56559706b7834]);
  (1046953735961257500, [0x6d3b73af74b0]);
  (1055654873660220400, [0x4f738003958f95f0]);
  (1065185891640653000, [0x61626b8b6b986bcd99ac9a6c]);
  (1075721943206435700, [0x4fbf]);
  (1087500246772073900, [0x59045e725e795e7f5ee36de1865596cd96f6]);
  (1100853386034526200, [0x73ed8fdf9072915d919e]);
  (1116268454017252000, [0x536f5b9e5be6611a65877236]);
  (1134500609696647500, [0x71df7533842596349670]);
  (1156814964828068400, [0x4e016f0f757475877e7c7ee78089821e8fd990199ea59ea6]);
  (1185583172073246600, [0x4e114ea5547d56e25718571f5df35eb7620c62bd6536666673347532898b89c18d778fb0903e9149919c9b3c]);
  (1226129682884063000, [0x4f535149536b57305b5f5b665b785e085e2b611b63a27231732a75357d20885b8a958bde8c6c8d768d95917796de96fb; 0x981098849ad49e219f8d9f99]);
  (1295444400940057500, [0x4f2050b3515452dd54a85b63620a66f4670d671b6743690d6b0a72d7738b76d876e47f8a80dc826f8aee9b4f])
].
(** prob_emit.go:21960-21960 probEmit, state 144 *)
Definition emit_144 : list (Z * list Z) := [].
(** prob_emit.go:21961-21985 probEmit, state 145 *)
Definition emit_145 : list (Z * list Z) := [
  (118058314491214780, [0x4e00]);
  (132315133931691720, [0x4f866765]);
  (244493323433965600, [0x4f3c]);
  (259825009439043000, [0x800c]);
  (261561113070154730, [0x7b49]);
  (267902235633868300, [0x7684]);
  (308591162799161800, [0x5728]);
  (331083824069948470, [0x822c]);
  (376163430366035150, [0x4e3a70ba]);
  (465576346373165400, [0x67816975]);
  (497908060023081900, [0x4e0e8207]);
  (673064918887562950, [0x6041]);
  (809892504449284100, [0x8d77]);
  (834008710130972900, [0x52195247]);
  (894622290488004500, [0x77e3]);
  (1073798237410810000, [0x4e915f00958b96f2])
].
(** prob_emit.go:21986-21986 probEmit, state 146 *)
Definition emit_146 : list (Z * list Z) := [].
(** prob_emit.go:21987-21987 probEmit, state 147 *)
Definition emit_147 : list (Z * list Z) := [].
(** prob_emit.go:21988-21988 probEmit, state 148 *)
Definition emit_148 : list (Z * list Z) := [].
(** prob_emit.go:21989-21989 probEmit, state 149 *)
Definition emit_149 : list (Z * list Z) := [].
(** prob_emit.go:21990-21990 probEmit, state 150 *)
Definition emit_150 : list (Z * list Z) := [].
(** prob_emit.go:21991-21991 probEmit, state 151 *)
Definition emit_151 : list (Z * list Z) := [].
(** prob_emit.go:21992-25355 probEmit, state 152 *)
Definition emit_152 : list (Z * list Z) := [
  (384790315782326480, [0x4e0d]);
  (393904373959575100, [0x53d1767c]);
  (400980767620326400, [0x51fa]);
  (409712595055692600, [0x53ef]);
  (432859153459603700, [0x4e0a]);
  (435538185162613800, [0x5f00958b]);
  (435736266115821200, [0x8fdb9032]);
  (435975459805807900, [0x6c926ca1]);
  (443527588634071400, [0x589e]);
  (445962200778718600, [0x63d0]);
  (454275083623735400, [0x4e0b]);
  (459291425792922150, [0x8868]);
  (463988983234421900, [0x56de]);
  (468056721753620100, [0x6210]);
  (471355015687866500, [0x770b]);
  (483182934734552400, [0x76f8]);
  (485254658893424600, [0x8a8d8ba4]);
  (486082072538649200, [0x5206]);
  (488849160637499700, [0x8d77]);
  (492308350899376500, [0x52a0]);
  (496132033043304150, [0x4fdd]);
  (503467616415784100, [0x4f5c]);
  (507402486092939400, [0x5b9e5be6]);
  (508392394517556000, [0x63a8]);
  (518245905464173900, [0x8f498f6c]);
  (519842290563075250, [0x6253]);
  (523754262520307000, [0x77e5]);
  (529008044656791600, [0x8aaa8bf4]);
  (532770481364375500, [0x6709]);
  (535012698595021600, [0x5305]);
  (535487508244629050, [0x6539]);
  (536346110553997700, [0x53cd]);
  (537337765618318900, [0x5efa]);
  (538639067191219740, [0x63a5]);
  (538689106996653700, [0x89e3]);
  (539805567918704550, [0x6536]);
  (541733573564366560, [0x7d447ec4]);
  (542861023769285400, [0x5f62]);
  (544883327689449500, [0x4f866765]);
  (545363736231988000, [0x53c253c3]);
  (546267702711084700, [0x4f7f]);
  (547140295691394100, [0x7e7c7ee7]);
  (547472596059171600, [0x98109884]);
  (550105188007107700, [0x63a191c7]);
  (552406274936789600, [0x5177]);
  (552746100123313160, [0x5f97]);
  (553719663924024450, [0x5f15]);
  (556448251094637400, [0x663e986f]);
  (556475427223293400, [0x5e9461c9]);
  (556938554975103450, [0x653e]);
  (557590558490243100, [0x5236]);
  (558412972398445000, [0x8d85]);
  (561502955691294800, [0x6307]);
  (562542985751367200, [0x51cf6e1b]);
  (563116451568332800, [0x8fd89084]);
  (564067866887459700, [0x521b5275]);
  (564138268767750900, [0x9700]);
  (564249839876538300, [0x53d7]);
  (569039589450183850, [0x8d70]);
  (569583472125870000, [0x5e265e36]);
  (570906011677254000, [0x7d507ed3]);
  (572763139999727700, [0x652f]);
  (572987305079026000, [0x53d6]);
  (574825068720001300, [0x59048655]);
  (575034273817223600, [0x65e07121]);
  (575592109554185400, [0x4ea77522]);
  (575644772316247800, [0x8054806f]);
  (577411790525232700, [0x6ce8]);
  (579121927170153100, [0x8981]);
  (579299341068616000, [0x4e3a70ba]);
  (579408675506185100, [0x517395dc]);
  (581285887290273100, [0x5b8c]);
  (581613859392641400, [0x8fbe9054]);
  (582006044221953540, [0x8fc7904e]);
  (583071272452648900, [0x626964f4]);
  (583213217118071500, [0x751f]);
  (583234526206478200, [0x53d88b8a]);
  (583504835092079700, [0x737283b7]);
  (584291452420471650, [0x611f]);
  (585229139614119400, [0x63a7]);
  (585664901796880000, [0x7d717edf]);
  (585941869903963900, [0x79f07a31]);
  (587813148906887850, [0x4ea4]);
  (589909787797589700, [0x7528]);
  (591795623677463740, [0x590d]);
  (591935018108770400, [0x662f]);
  (592595907658061400, [0x60f3]);
  (593379058344126300, [0x6d41]);
  (594533586429956700, [0x51b36c7a]);
  (595516689899989400, [0x542c807d]);
  (595838492269409500, [0x90099078]);
  (595886852067240800, [0x5b58]);
  (599481822694277100, [0x81ea]);
  (601610281424302100, [0x6295]);
  (602226827306106750, [0x786e78ba]);
  (603636824282725100, [0x4f4d]);
  (606814223308817450, [0x5408]);
  (607500022784270300, [0x6392]);
  (609641589025949400, [0x544a]);
  (609900944488113400, [0x80fd]);
  (610086611084338300, [0x8003]);
  (610375077296562000, [0x5931]);
  (611612786486549300, [0x5bf95c0d]);
  (612114088080233300, [0x627f]);
  (612952028614467200, [0x6301]);
  (613961118912663500, [0x96c6]);
  (614019089928779800, [0x89ba89c9]);
  (614193204888611400, [0x9020]);
  (614445240694768000, [0x583162a5]);
  (616267034468685800, [0x7533]);
  (616494633399254100, [0x5229]);
  (616782346281885600, [0x4f2050b3]);
  (617031040764702800, [0x91cd]);
  (617971706161806400, [0x5b89]);
  (619053344202698200, [0x6d88]);
  (620044108652626050, [0x62c564d4]);
  (622896983025887300, [0x8a2d8bbe]);
  (624226012209979200, [0x516c]);
  (625118347325252300, [0x53ea]);
  (625724934973749100, [0x51c66e96]);
  (626368024006778250, [0x7559]);
  (630897733224316700, [0x5bfc5c0e]);
  (631138296946493300, [0x505c]);
  (631448445951642800, [0x9762]);
  (631655747649743700, [0x5728]);
  (633060542331196600, [0x90029069]);
  (633353265448712200, [0x505a]);
  (633941294898016600, [0x4e3e8209]);
  (634106564679466700, [0x9000]);
  (634201127334267400, [0x7dad7ef4]);
  (635726419059794350, [0x914d]);
  (637165640854448200, [0x64cd]);
  (638034307233111250, [0x5750]);
  (638058886316435200, [0x5ba3]);
  (638144960714617600, [0x6cbb]);
  (638428299370449450, [0x79bb96e2]);
  (639295607495792300, [0x8a188bb0]);
  (640296116091888500, [0x7834]);
  (641255961804082300, [0x9632]);
  (641484649491094200, [0x8ffd]);
  (641599189751787300, [0x5f375f3a]);
  (642494565393336000, [0x57f76267]);
  (643696673839305900, [0x4f545360]);
  (643722685024261900, [0x7406]);
  (644966075167951400, [0x5438]);
  (644979246060298500, [0x678469cb]);
  (645005593050307300, [0x4e86]);
  (646425374081238950, [0x964d]);
  (646518963231729400, [0x9707]);
  (646907625518210200, [0x4e708cb7]);
  (648055588695378100, [0x597d]);
  (648682379138199100, [0x4fc3]);
  (648942421712712800, [0x5927]);
  (649258117534581400, [0x4fee]);
  (650127988397598900, [0x4ecb]);
  (650364017663717850, [0x660e]);
  (652088560928850750, [0x5347]);
  (652627416458473000, [0x901a]);
  (653512883540635000, [0x7b49]);
  (654304995408956700, [0x5e0c]);
  (654507629723479900, [0x5ba15be9]);
  (654725194534805000, [0x62db]);
  (655030582687511000, [0x8a088ba1]);
  (655234694144873800, [0x72ec7368]);
  (656320544872575200, [0x62e564c1]);
  (656586463185573900, [0x898b89c1]);
  (659012094910422200, [0x5165]);
  (659361294384678200, [0x6b63]);
  (659940917728001900, [0x523a]);
  (660770415571775250, [0x5c31]);
  (661934031214455300, [0x622a]);
  (663776748132271900, [0x524d]);
  (664031403689276400, [0x8cfc8d2d]);
  (664350637799173600, [0x5ef6]);
  (664526651925742500, [0x8abf8c03]);
  (664686934056546500, [0x4e265e76]);
  (665072662596522300, [0x6f14]);
  (665282221793064000, [0x53ec]);
  (665298359935598900, [0x6062]);
  (667616831131108400, [0x4f4e]);
  (667782147750011800, [0x884c]);
  (668880145804886500, [0x540c]);
  (669047565900915100, [0x9ad8]);
  (669114612500811900, [0x51748208]);
  (669517838853605800, [0x7b7e7c3d]);
  (670278298792127700, [0x554f95ee]);
  (670635168913418200, [0x70b99ede]);
  (671730695104679100, [0x89c089c2]);
  (671868483621139840, [0x6574]);
  (672716606402945400, [0x6ee16eff]);
  (673466849824269250, [0x843d]);
  (673607053142013100, [0x7206]);
  (674399380554959200, [0x8b498bc1]);
  (674505500126290400, [0x4ee5]);
  (674895571542872100, [0x653b]);
  (675895401332321200, [0x5411]);
  (676941586920514600, [0x767b]);
  (677068594104420300, [0x6df1]);
  (677104911519019600, [0x6279]);
  (677250313216755700, [0x4ece5f9e]);
  (677505276021054300, [0x8fd0904b]);
  (680110022893497700, [0x5b665b78]);
  (680203647092827900, [0x559c]);
  (682113870661326100, [0x8a558bc4]);
  (682343272405973600, [0x5f815fb5]);
  (683944541306691400, [0x5f537576]);
  (684061295552295100, [0x9001]);
  (684568811769499800, [0x63a2]);
  (685334948509772900, [0x4f8b]);
  (685473083706873600, [0x76f4]);
  (685809351455248600, [0x5c55]);
  (686027540572851000, [0x4f9d]);
  (686645010914342700, [0x9650]);
  (688683632327670000, [0x5bfb5c0b]);
  (688744825598320100, [0x4f539ad4]);
  (689523199048896300, [0x5e725e79]);
  (689543764601667950, [0x5224]);
  (689811502378739600, [0x8ca08d1f]);
  (690307678711966100, [0x6240]);
  (690806329236180800, [0x6bd4]);
  (691014836400962600, [0x5230]);
  (691202865287447800, [0x900f]);
  (691517034568792250, [0x886588dc]);
  (693166818180316200, [0x518d]);
  (693615680748630100, [0x5c5e5c6c]);
  (693658534831137300, [0x4e3b]);
  (693765750452000700, [0x6d89]);
  (694002030231134600, [0x575a5805]);
  (694023537920216300, [0x88c588dd]);
  (694131145807496600, [0x907f]);
  (694692581097830700, [0x5b9a]);
  (695649942631002200, [0x6d3b]);
  (697481212780501000, [0x5145]);
  (697681814653187600, [0x80af]);
  (697748771468544800, [0x5e2e5e6b]);
  (697927542465876700, [0x8d768d95]);
  (699006932302442150, [0x4fb5]);
  (699596503171193800, [0x534f5354]);
  (700648181817206800, [0x9003]);
  (701108905967812100, [0x52a852d5]);
  (701386362793204650, [0x65b0]);
  (702550791413478600, [0x7f3a]);
  (702761836162933200, [0x5df2]);
  (703043923797097300, [0x8f388f93]);
  (703091015862954600, [0x67406bba]);
  (703421282735461250, [0x644664fa]);
  (703800071067154900, [0x4e89722d]);
  (704609792090416900, [0x62ab]);
  (705667494258726000, [0x6c886c89]);
  (706468177900622000, [0x7d667ed9]);
  (707128084975834800, [0x98db98de]);
  (707496590490502100, [0x4e2d]);
  (707718347388080300, [0x6b7b]);
  (707792375769005750, [0x610f]);
  (708113800201996600, [0x5546]);
  (708461108911317300, [0x62c9]);
  (708635216653346600, [0x627e]);
  (708934394139028900, [0x7b807c218ddf]);
  (709109328583240300, [0x95b19605]);
  (709837334810968300, [0x66f4]);
  (710367840033937500, [0x547c]);
  (710570679860076800, [0x514d]);
  (711539827970969200, [0x906d]);
  (711565459138609100, [0x56f4570d]);
  (711950717095536200, [0x7b54]);
  (712002197148153300, [0x5012]);
  (713167560589195000, [0x503c]);
  (713637535344584800, [0x4f30]);
  (714241290952051700, [0x9047]);
  (714399393751783600, [0x67e5]);
  (715060859320070700, [0x77408457]);
  (715273455732857000, [0x73b073fe]);
  (715726729405871300, [0x6da86f32]);
  (716585564529126700, [0x5f526b787b97]);
  (717397476972977200, [0x63cf]);
  (718545344181468100, [0x542f555f]);
  (718572835590575900, [0x4eab]);
  (718793039367967800, [0x62ac]);
  (718820598965772100, [0x521252837de87f16]);
  (718903323360397300, [0x7d937ecf]);
  (719013729112710700, [0x7167]);
  (721078534611912600, [0x4f11]);
  (721163148916777600, [0x4e3453eb812b813181e8]);
  (721643987065669600, [0x5199529e5beb8fa6]);
  (722269700142405750, [0x600061f7]);
  (722755901586387800, [0x7ffb]);
  (722784575421709700, [0x7d2f]);
  (722841947769812300, [0x8a0e8ba8]);
  (723043010597851900, [0x4efb]);
  (723100531450746500, [0x4f18512a]);
  (723330946299231600, [0x4f38]);
  (723561893284097800, [0x5982]);
  (724228852404291400, [0x4ee3]);
  (724257951778860200, [0x81f4]);
  (724520227901813900, [0x62ff8acb8bf7]);
  (724549412200868300, [0x5c45]);
  (724695461591514340, [0x5403]);
  (724753941125344700, [0x517c]);
  (724871002888785700, [0x4fbf]);
  (725753361554637260, [0x538b58d3]);
  (726286538173167350, [0x7bc08282]);
  (726583980391271300, [0x7b26]);
  (726942082833042000, [0x613f9858]);
  (727541784780279300, [0x501f]);
  (728448135395614000, [0x8fce]);
  (728721650229553500, [0x963b]);
  (730595457166287500, [0x5448]);
  (730812747334041900, [0x8a668bd5]);
  (730906016422102800, [0x6298]);
  (730999372582609600, [0x638c]);
  (731123983190634250, [0x9f13]);
  (731969190914360400, [0x4fe1]);
  (732157988956595600, [0x52df]);
  (732221000930955200, [0x64a4]);
  (732948506907306900, [0x7e2e7f29]);
  (734451813644436800, [0x66b4]);
  (735195792492512800, [0x6fc0]);
  (735716627003226600, [0x805a]);
  (735781922467511900, [0x7c7b985e]);
  (736010792928705300, [0x670d]);
  (736141811617607800, [0x8fde9023]);
  (736634666237722800, [0x6297]);
  (737494744314982700, [0x57f9]);
  (738261798267663850, [0x898f89c4]);
  (738462870721467600, [0x672a]);
  (738496422139329800, [0x6293]);
  (738563558764879300, [0x7814]);
  (738630740493976600, [0x5c0f]);
  (739203614849253800, [0x51b2885d]);
  (739643920387017200, [0x7e41]);
  (740701770210815500, [0x51fb64ca]);
  (741079842494806100, [0x641664476d4b6e2c]);
  (742048708205181000, [0x628a]);
  (742257549213908200, [0x62bd]);
  (742536684077635200, [0x5e73]);
  (742676544240293500, [0x636e64da]);
  (743979608989075200, [0x62cd]);
  (744299154796219200, [0x8870]);
  (744548398293595200, [0x52696c42]);
  (744762531137729400, [0x542b]);
  (745731844058295400, [0x62b579ef7a4d]);
  (745804020171136400, [0x7a81]);
  (746020861600518700, [0x4f1a6703]);
  (747258591271374200, [0x5171]);
  (747920115183246200, [0x6bd57562]);
  (749293814156264100, [0x6d17]);
  (751524108831565800, [0x6b226b61]);
  (751792051575601900, [0x635f640d]);
  (751983879756428800, [0x8ac78c08]);
  (752214560366220300, [0x65ad65b7]);
  (753259259362685900, [0x8b1b8bb2]);
  (753492904328787800, [0x63ed65636e38904a]);
  (754827304034762400, [0x7981]);
  (754906355422278300, [0x5fcd]);
  (755381980575743200, [0x559d]);
  (755461471835890800, [0x5207]);
  (756862896173372100, [0x60ca9a5a]);
  (757876076066412700, [0x539f]);
  (757957575663425850, [0x7092]);
  (758407014622209800, [0x7761]);
  (758611974726754200, [0x79cd7a2e]);
  (758694076537605800, [0x68c06aa2]);
  (758940787189057500, [0x53568ce3]);
  (759105599752116400, [0x603b7e3d]);
  (759311998174201600, [0x5fc3]);
  (759518823480607500, [0x96be96e3]);
  (759767579827787600, [0x671f]);
  (759809099446403650, [0x62a26436]);
  (759975350523765000, [0x7387]);
  (760308684165740800, [0x5217]);
  (760392191477483000, [0x532f6302639b6c47]);
  (760685017455391800, [0x632f]);
  (761695552370584000, [0x76d876e4]);
  (762374960504172400, [0x7de97f13]);
  (762417577167932700, [0x6388]);
  (762716403430856900, [0x53866b77]);
  (763144853100840700, [0x8b708bae]);
  (763359768292094600, [0x6e05]);
  (763963999737690900, [0x7a7f9577957f]);
  (764050617326475750, [0x5316]);
  (764267490107206300, [0x8d0a8d5e]);
  (764702651803484400, [0x9677]);
  (764789911843925300, [0x593a596a]);
  (765578697704020500, [0x80cc]);
  (765754831611290700, [0x4f34]);
  (766108032861477800, [0x5bcc]);
  (766285102407521200, [0x62d2]);
  (766551295998601600, [0x76db]);
  (766862753425016100, [0x601d65bd]);
  (766996532709182100, [0x6d3e]);
  (767219896661775800, [0x5bb3]);
  (767309382126360200, [0x525d5265]);
  (768208668762416600, [0x719f]);
  (768570660107930000, [0x636263db]);
  (769070547538347600, [0x7cbe]);
  (769207315282484200, [0x7acb]);
  (769481413215626400, [0x503e50be]);
  (770400537333181200, [0x9732]);
  (770677930021453800, [0x8fc19077]);
  (770770565507466800, [0x59478eab]);
  (771141967977104000, [0x7b797c4c]);
  (772076554218927800, [0x5954]);
  (772499984632806600, [0x8fdd9055]);
  (773304722703514700, [0x540d]);
  (773828907844674900, [0x93ae9547]);
  (774307835963177650, [0x5e03]);
  (774982212314720500, [0x878d]);
  (775078924121098000, [0x5141]);
  (775758538387381400, [0x6291]);
  (776197884956915300, [0x624b8fd498189886]);
  (776983743618167500, [0x5429]);
  (777082411608411900, [0x6d8c6e67]);
  (777577217170148850, [0x62c6]);
  (777626832651196500, [0x6551]);
  (778474084168425000, [0x91ca91cb]);
  (778774836274820450, [0x4ed8]);
  (779328575419419700, [0x5c01]);
  (779379067720416700, [0x5b88]);
  (779429585529018300, [0x59d4]);
  (780139527658938600, [0x7ba1]);
  (780649732847328200, [0x8fdc9060]);
  (780700896829002000, [0x7d0d7eb3]);
  (780752087001606900, [0x53bb]);
  (780957110138518700, [0x50cf]);
  (781008431669026800, [0x98129881]);
  (781574713748575300, [0x5782]);
  (782196155417086400, [0x5373]);
  (782560454544936400, [0x8a628be2]);
  (783135619529232900, [0x9075]);
  (784561574506875300, [0x70e771d2]);
  (784827886248823700, [0x969096b1]);
  (785041447461865900, [0x8a3a8bca]);
  (785577354425049700, [0x57cb]);
  (785684881317130400, [0x4fa65075]);
  (785846388754660200, [0x5fd8]);
  (787093355305304300, [0x78b0]);
  (787640402621408500, [0x4e00]);
  (787805102082190700, [0x8cea8d28]);
  (788025124173151000, [0x517b990a]);
  (788411331549745300, [0x4e92]);
  (788688110027017950, [0x8feb]);
  (788743557768943050, [0x591a]);
  (788854545571679200, [0x63236399]);
  (789802948775279300, [0x99d59a7e]);
  (790703855769515900, [0x4f9b]);
  (791612952939641100, [0x8db3]);
  (791784332587414600, [0x90e8]);
  (791898749075869100, [0x8986]);
  (792127975537272700, [0x8df3]);
  (792242786112455900, [0x578458df]);
  (793050172274607000, [0x8b66]);
  (793108092924937500, [0x70ed71b1]);
  (793514479550989900, [0x7e317eb5]);
  (793689152084484000, [0x958395ea]);
  (793805770173502300, [0x7275727d]);
  (793922524419106100, [0x899689c6]);
  (793980952700055500, [0x79df]);
  (794097911777715700, [0x4e135c08]);
  (794156442654423300, [0x641c]);
  (794390909350348700, [0x8f3b8f90]);
  (794861498454089950, [0x5374537b]);
  (795334312573684500, [0x9996]);
  (795452866233094700, [0x8a2a8bbf]);
  (795571560609047600, [0x8dcc]);
  (795630960670194200, [0x5e9f5ee2]);
  (795988103906953900, [0x62186230]);
  (796047751985072000, [0x5426]);
  (796346527229735500, [0x5f205f35]);
  (796586191814195400, [0x8c619664]);
  (796886582547735500, [0x54cd97ff]);
  (797369092530911150, [0x9a459a71]);
  (797732509042333100, [0x529b]);
  (798341153647973300, [0x6311]);
  (798524471756139400, [0x540e5f8c626d]);
  (798830750709194000, [0x8d8b8da8]);
  (798892119229070300, [0x59495c0a]);
  (799384427915707200, [0x89e689f8]);
  (799817195206285400, [0x629b62cb]);
  (800065334291423900, [0x5047]);
  (800688389266487600, [0x7a7a]);
  (800750908805879300, [0x5916]);
  (801315350567847000, [0x732e737b]);
  (801441215908566700, [0x6355]);
  (802517516263712800, [0x547d]);
  (802836292434200000, [0x5e38]);
  (803476909615441100, [0x55b75674]);
  (804575466705386900, [0x5c1a5f80]);
  (804640465082715800, [0x8cab8d2f]);
  (805161978650626700, [0x773c]);
  (805227359496368500, [0x642d]);
  (805292783116628300, [0x62a48b77]);
  (805423758904834700, [0x6b66]);
  (805554906464615600, [0x504f]);
  (805751950863345500, [0x51dd]);
  (806147208294927800, [0x6a2a6a6b6df7]);
  (806676660226625200, [0x6697]);
  (806809462370977200, [0x95e19610]);
  (806942441113977400, [0x59cb]);
  (807142241380244700, [0x62dc]);
  (807208930279015000, [0x51b78b008c0b]);
  (807275663681558300, [0x4e88]);
  (807543043519998500, [0x6beb]);
  (807811140195324400, [0x8b808bfb]);
  (807945458549971100, [0x9012905e]);
  (808282045875481500, [0x71c38dea]);
  (808416998662495000, [0x5de179fb]);
  (808484543413458700, [0x7ad9]);
  (809026550160392700, [0x6500]);
  (809776638914204800, [0x632563ee7d557edd]);
  (810739507426126400, [0x626b6383]);
  (810947048143997600, [0x62d6]);
  (811293909400538000, [0x4f0150995907]);
  (811502605128457900, [0x7f6e]);
  (811641977973318200, [0x7ade7af6]);
  (811851402133629700, [0x671b]);
  (812552667279564700, [0x642c]);
  (812693512373270500, [0x63a9]);
  (813329781752053400, [0x822a]);
  (813898773329821200, [0x62b1]);
  (814112982622726700, [0x8cb68d2c]);
  (814184487809899200, [0x5de9978f]);
  (814758377476801000, [0x5960]);
  (814830345813840400, [0x8f9e8fad]);
  (814902365982599800, [0x7d277dca]);
  (815118738227131000, [0x529d52f88ce08d54]);
  (815770678239946000, [0x6444651d]);
  (815843379079207600, [0x524a]);
  (816573309327368900, [0x4f2450b7]);
  (816719936919621500, [0x6eb6]);
  (816793331418329000, [0x4e2556b4]);
  (818347191761106900, [0x5371]);
  (818795623005839900, [0x66ff6f5b6f5c7d427ec8]);
  (819095698249763700, [0x50ac]);
  (819321347085636900, [0x4e2755aa]);
  (819396676656054100, [0x8b1d8c22]);
  (820001364817543400, [0x88ab]);
  (820457292658995200, [0x7e737f34]);
  (821221822376790200, [0x8ad68bba]);
  (821683361657630400, [0x665366c9]);
  (822924649899601400, [0x6b62]);
  (823159116595526700, [0x5d07]);
  (823237394486020900, [0x4eb289aa]);
  (823472596476064000, [0x958995ed]);
  (823865833317836000, [0x51bb51cd62e66514]);
  (824102519818862700, [0x6a21903c]);
  (824339767854225700, [0x8de8]);
  (824418975779159000, [0x6e7f6fd5]);
  (825294429042583700, [0x53f7865f904d]);
  (825374397059640200, [0x5c65]);
  (825534525196337500, [0x6838]);
  (825694910154535000, [0x5ffd]);
  (826016453839932500, [0x643a651c]);
  (827068669132671300, [0x6c9f6e9d731c]);
  (827313068439659100, [0x6ec5706d]);
  (827394667791392100, [0x7565]);
  (827558066520557600, [0x5e74]);
  (827803666316544600, [0x727a72a7]);
  (828132073836663600, [0x99d09a7b]);
  (828709395027795500, [0x6316]);
  (828792142239798800, [0x5806]);
  (829206908491806900, [0x6025]);
  (829290068579759600, [0x8ff7]);
  (830125495326745300, [0x5584]);
  (830545840628308000, [0x6e176ef2]);
  (830967960292670500, [0x60ac61f8]);
  (831052598469538500, [0x514c5151638f]);
  (831222090035537800, [0x6276]);
  (831902943729503000, [0x7cfe7ea0]);
  (832073883942068000, [0x5bc4]);
  (832588464837408400, [0x5f255f4c656c]);
  (832674486348089200, [0x7980]);
  (833019314275980700, [0x8a028ba2]);
  (833712557953545300, [0x6258]);
  (833886622401323600, [0x514971df8425]);
  (833973768376337800, [0x75c5]);
  (834060990361806300, [0x514b]);
  (834148288490440800, [0x62d3]);
  (834761518620647200, [0x5370]);
  (835999377043911100, [0x6263]);
  (836534614717770400, [0x61c2947d94bb]);
  (836803311699852900, [0x805e95fb]);
  (836893038040552000, [0x98f2996e]);
  (836982844961720400, [0x964498c498d8]);
  (837072732608222000, [0x758f]);
  (837162701125311800, [0x65cb]);
  (837342881354238000, [0x5272]);
  (837976081117988900, [0x98df]);
  (838066866417006800, [0x6b8b6b98]);
  (838430834061751700, [0x52c9840e]);
  (838613315864214700, [0x5929]);
  (839438630039886700, [0x507f511f]);
  (839715255389175800, [0x8017]);
  (840085283563461300, [0x8b938ba98d168d4e]);
  (840178004942380600, [0x64ad]);
  (840270812373636000, [0x6b3a]);
  (840456686033098400, [0x75db]);
  (840642905826205000, [0x6c27]);
  (840829473044499800, [0x8eb2]);
  (841579242255080000, [0x76d176e3]);
  (841673359909086500, [0x629a64ab]);
  (841861861378663400, [0x4e587d307ec6]);
  (842050718847450400, [0x6e90]);
  (842429507179144100, [0x533a5340]);
  (842619440759509300, [0x62e864a5]);
  (843382803245016400, [0x82e6]);
  (843862880979352000, [0x5fc5]);
  (845024559096419000, [0x7f627f77]);
  (845121977516203200, [0x57ce]);
  (845512603012910000, [0x5ea688ad8972]);
  (845806576767002300, [0x968f96a8]);
  (845904760378228000, [0x9759975c]);
  (846891935226143400, [0x5bc6]);
  (846991190817418600, [0x7d007eaa8ab08c018cac8cbc8d238d34]);
  (847090545023306300, [0x5192]);
  (847389201293081300, [0x6380793a84c4]);
  (847688752191061000, [0x5957]);
  (847989203093090900, [0x8b588bc6]);
  (848089554330814900, [0x82b1]);
  (848491969360787500, [0x56175c1d]);
  (848794846927003600, [0x884d]);
  (848896010314488000, [0x9080]);
  (849403368074558000, [0x796d8a958bde]);
  (849607034132738500, [0x6d6e9760]);
  (849913313085793100, [0x53d96558]);
  (850015614884996600, [0x5167518588c1]);
  (850323149725021200, [0x7591]);
  (850425871870674200, [0x668266ab]);
  (850631633260142400, [0x5148]);
  (850837818900198300, [0x9a0e9a91]);
  (850941071361617100, [0x4ec550c5]);
  (851355150628220200, [0x6b65]);
  (851666839192245600, [0x5730]);
  (851770951643086600, [0x53e9]);
  (852083940943979500, [0x906e]);
  (852397912944446100, [0x53f95606]);
  (852502789723854600, [0x4e1f4e22]);
  (853134370770667000, [0x523b]);
  (853663752631638500, [0x73af74b0]);
  (854089285188652300, [0x5ff563d2]);
  (854195951865432500, [0x632464e0]);
  (854302732441515600, [0x5d1b7d047ea6]);
  (854516636266390600, [0x58355e02]);
  (854945821474544600, [0x53db]);
  (855268923532689300, [0x72798f2a8f5f8f6e8f70]);
  (855484906338032200, [0x77a7]);
  (856244541027225700, [0x6309]);
  (856462643621861700, [0x6982]);
  (856571873561722600, [0x5065]);
  (857009990363278900, [0x5d2996489673]);
  (857229770671526800, [0x9867987e]);
  (857339842229145400, [0x6599]);
  (857781344050057200, [0x6ed18aa48bef]);
  (857892024747576300, [0x541e]);
  (858002828083012400, [0x6572]);
  (858335976642112700, [0x6bc06bc1]);
  (858447273259054800, [0x586b59385f558a879304]);
  (859567105790057800, [0x520a]);
  (859679781858316800, [0x84b8]);
  (859792585028766800, [0x6559]);
  (860018573825510500, [0x535a81a8]);
  (860131760028878700, [0x558a]);
  (860358517495656900, [0x8a988bf1]);
  (860699620725763200, [0x5439]);
  (861385337698376800, [0x8fd1]);
  (861845108623239800, [0x54689031]);
  (862075789233031200, [0x803d]);
  (862307003208869300, [0x820d]);
  (862538753022905500, [0x5225522b]);
  (863003870140478600, [0x6dd8]);
  (863120488229496800, [0x8caf8d2e]);
  (863237242475100600, [0x6350]);
  (863471160710417800, [0x60e9611b61f27231]);
  (864294210624069400, [0x54b3]);
  (864412344128652400, [0x5f2f5f4e]);
  (864886278665042000, [0x8a318bb8]);
  (865481873040327300, [0x7df47ec3]);
  (865960915872590500, [0x5f395f48]);
  (866442264575745300, [0x521d711a]);
  (866804802737177000, [0x6cbf]);
  (868268243489020700, [0x5bb9]);
  (868514246073107000, [0x6cdb]);
  (868637474677733600, [0x4eff]);
  (868760855322626400, [0x76d776dc]);
  (868884388383425600, [0x5531]);
  (869008074237165200, [0x7adf]);
  (869131913262280000, [0x4f4f8ce68d4b8def8fa98faf]);
  (869628808694598700, [0x935b953b]);
  (870128185512647300, [0x52fe8fa8]);
  (870504361504836600, [0x63a0]);
  (870630068623841600, [0x62fc]);
  (870881957925790000, [0x62df64ec]);
  (871641455247534400, [0x9806987a]);
  (872534888120911100, [0x4e438f158f7b]);
  (872663175502200000, [0x8150]);
  (872791627671435700, [0x65578d25]);
  (873565825086797300, [0x68076a198ced8d4c]);
  (873695442732941900, [0x8cfa8d5a986b98a4]);
  (873955183138710400, [0x607660e170bc71498dc38e8d8f148f85]);
  (874085306774507700, [0x7763]);
  (874476696706621200, [0x563156d16cc46d29]);
  (874738476960829000, [0x626e8861]);
  (874869624520610100, [0x96b696b8]);
  (875000944303106300, [0x91cf]);
  (875132436761237100, [0x5021]);
  (875395941525037600, [0x966a]);
  (875527954745529900, [0x72b97336]);
  (875792505164372400, [0x65e5]);
  (875925043288479300, [0x5e866176]);
  (876190647694290800, [0x507780e1]);
  (876456959436239200, [0x7e5e7ed5]);
  (877125858251319000, [0x4fd7]);
  (877260176605965600, [0x9057907a]);
  (877394675617499000, [0x624d]);
  (877529355772536800, [0x7b56]);
  (877664217559666100, [0x56fa]);
  (877799261469453300, [0x78e8]);
  (877934487994454600, [0x65e8]);
  (878069897629227500, [0x4e714e82]);
  (878205490870341200, [0x6469]);
  (878477230167991200, [0x64b0]);
  (878613377227823200, [0x58f08072]);
  (879022934114297000, [0x9752]);
  (879847114603807300, [0x6e21]);
  (880261766199992100, [0x5939593e62d463e1666e681668f26ca66dea]);
  (880400366360780000, [0x959295f2]);
  (881375983855316400, [0x72af]);
  (881516138047845200, [0x98fc9972]);
  (881797037108950700, [0x4fef]);
  (881937783085738800, [0x944494f8]);
  (882078727436062000, [0x865a865b]);
  (882928590908208300, [0x8fc89081]);
  (883070939686693600, [0x594b596e]);
  (883213491385815700, [0x5fae]);
  (884073095532795600, [0x8a898b7d]);
  (884361280170284500, [0x5bdf6ecb]);
  (884505684527507800, [0x6f02]);
  (885376517316686300, [0x902e]);
  (885522396263052300, [0x6ede6eef]);
  (885814794132195800, [0x54ed]);
  (886255000272259600, [0x56fd570b]);
  (886402167333405300, [0x633d]);
  (886993011002021900, [0x62d8]);
  (887885874076452000, [0x6d78]);
  (888035462735610200, [0x8d0f8d6295f99b27]);
  (888185275497712500, [0x840c]);
  (888485576023689400, [0x80158574860a]);
  (889240296587227700, [0x6492904f]);
  (889543786956743000, [0x653f]);
  (890000756525749600, [0x5220522a65f66642]);
  (890459823896609500, [0x6b23]);
  (890613315868418000, [0x6478]);
  (890921008418865800, [0x50f196c7]);
  (891384329711014600, [0x6b7c6bb2]);
  (891539248409697500, [0x51f8]);
  (891694407478839500, [0x6467]);
  (891849807665512800, [0x706b]);
  (892317462453903000, [0x538c53ad817990bb9130]);
  (892787314532058400, [0x9694]);
  (892944423755262700, [0x6e34]);
  (893101780200005600, [0x985b98a0]);
  (893575340674589000, [0x64c56613]);
  (893733693835153500, [0x7c89]);
  (893892298150717000, [0x8e0f]);
  (894529242979265000, [0x54135687]);
  (894689115115634700, [0x649e731b]);
  (894849243252332000, [0x4f5558ee58ef]);
  (895331171895926800, [0x5339]);
  (895492332285361100, [0x633a67b6]);
  (895653752820815200, [0x4f8d65e9]);
  (895815434343505700, [0x5c828c48]);
  (895977377698736000, [0x6328]);
  (896464787274560500, [0x6b4c9ebb]);
  (896791051838042100, [0x4eae]);
  (897282453318285200, [0x612461a4]);
  (897611400983325000, [0x53e3]);
  (897941434286190600, [0x8058]);
  (898106860295793300, [0x5c3d648776e18caa8d2a92ea94fa]);
  (898438535558392600, [0x52378f098f7d]);
  (898604786635754100, [0x60a3]);
  (898771314567660300, [0x52a967d3]);
  (898938120277729900, [0x671d7784]);
  (899272568750014600, [0x4ea19063]);
  (899608139534711900, [0x7701]);
  (899776348153010400, [0x73a9]);
  (899944840189502300, [0x5851]);
  (900113616600874200, [0x6d6a9a379a9a]);
  (900282678348665000, [0x68116a39]);
  (900452026399298300, [0x7aef]);
  (900621661724116200, [0x50a851329f4a9f50]);
  (900791585299412000, [0x677e]);
  (900961798106465200, [0x65c5]);
  (901132301131573500, [0x7b3c7c60]);
  (901474181806452200, [0x8d8a]);
  (901817235316131000, [0x4fa7507476ee]);
  (901989204404083700, [0x93969501]);
  (902161469735228400, [0x604b62008f9b]);
  (902334032331975200, [0x660f]);
  (902506893222037100, [0x65487948]);
  (902853514019685700, [0x4ef08cde8d4f]);
  (903201340457318100, [0x6349]);
  (903375708417800800, [0x6df97f5a7f70]);
  (903725359123673800, [0x5f98]);
  (903900644006415300, [0x5317]);
  (904076236676641700, [0x98fd9971]);
  (905492189537005200, [0x6eda6efe]);
  (905670601716355300, [0x5c6f]);
  (905849332773764900, [0x626c63da]);
  (906207756096546500, [0x6b2098a898ce]);
  (906747811414546400, [0x4f6999b39a70]);
  (906928479937041300, [0x68b3]);
  (907290799173983400, [0x56326398]);
  (907472452266623200, [0x901d]);
  (907654435938321700, [0x54555614]);
  (907836751394473200, [0x632164cb]);
  (908019399847076700, [0x7d20]);
  (908202382514784300, [0x99db9a579a769a8c]);
  (908385700622950400, [0x60df9006]);
  (908937679945310300, [0x5378]);
  (909122352204626700, [0x7422]);
  (909307366133442800, [0x78d5]);
  (910237605399674000, [0x62f17e547ec7]);
  (910424696193255300, [0x7a337a69]);
  (911176579434658000, [0x6821]);
  (911365436903445000, [0x6b47]);
  (911554651718648600, [0x98029876]);
  (911934158815503800, [0x548c80b2]);
  (912124453830112400, [0x83ab]);
  (912506133682782500, [0x6b96]);
  (913081398931727500, [0x53ae5edd]);
  (913273891772686000, [0x8513]);
  (913466755863326400, [0x552f5f85]);
  (913659992638431900, [0x552e98c698d9]);
  (914631817585324000, [0x5c0472c2]);
  (914827321068904300, [0x5254]);
  (915023207517437600, [0x51b6]);
  (915810613160528300, [0x5435915d919e]);
  (916008437161738900, [0x65626e836f708eac]);
  (916206653282138000, [0x6dfb]);
  (916803669980788300, [0x54c18db4]);
  (917003470247055600, [0x4e455bbd5bec64959686]);
  (917404272386809400, [0x77ed]);
  (917605277479612000, [0x4e1c67717b11]);
  (918008503832405700, [0x722c]);
  (918413362685005700, [0x63899913997f]);
  (918616408440044000, [0x5c11]);
  (918819867309822800, [0x5377]);
  (919023740978807500, [0x9192]);
  (919843417699225400, [0x6c146c2388c2]);
  (920049390995526500, [0x56f0]);
  (921085669699081100, [0x8a008af88bf8]);
  (921294220348183200, [0x5b64]);
  (921503206840129300, [0x6292]);
  (921712631000440700, [0x65a965ac7d22]);
  (922554741240081500, [0x4f3a]);
  (922766381530719200, [0x5c40]);
  (923831354322385100, [0x5c486b89]);
  (925124475789610000, [0x704c]);
  (925341631140960700, [0x7b517bc98b748c34]);
  (925559259083220300, [0x4ef2]);
  (925995940999854400, [0x4e506a02]);
  (926875067540971500, [0x51c06de8]);
  (927317546139007000, [0x4e8f8667]);
  (927761991315049400, [0x4f2a507d]);
  (929333291881505000, [0x74e68a348bc9]);
  (929559792544590200, [0x7de07f14]);
  (930242389051630200, [0x606d]);
  (930470960579715700, [0x6de18d088d60]);
  (930929676980406400, [0x7e8f7f20]);
  (931159826679234300, [0x52dd80dc817e85cf9a30]);
  (931390507289025700, [0x673a6a5f6c3473cd]);
  (931621721264863800, [0x4e8b625164b2]);
  (931853471078900000, [0x55985fe761826458]);
  (932085759220514000, [0x795d]);
  (932318588196473100, [0x51d159a86e4a7194]);
  (932785878766412300, [0x59a5]);
  (933020345462337800, [0x7518]);
  (933255363196833000, [0x52a152d9]);
  (933963748685673600, [0x4ea65e085e2b9053]);
  (934438808961533400, [0x53575df4]);
  (934677188097061000, [0x7ae3]);
  (935395754063148600, [0x5766641e]);
  (936119520793171500, [0x54c0]);
  (936361945154322200, [0x52b352de]);
  (936604958639651400, [0x66a26d777545]);
  (936848564119439500, [0x932f9519]);
  (937092764484994600, [0x632a]);
  (937337562648858700, [0x66dd]);
  (937582961545015300, [0x6405652a]);
  (937828964129101500, [0x5f04]);
  (938075573378621000, [0x62548499]);
  (938322792293159800, [0x81f3]);
  (938819071227372800, [0x53ee754f7c987d147eaf9ed8]);
  (939568138400288400, [0x582a]);
  (939819079560831000, [0x76ef76fc8dd1]);
  (940070652020555800, [0x7a00]);
  (940575703599162700, [0x95d695ef]);
  (941083318902348700, [0x6284]);
  (941338096110228600, [0x62a86fd27015]);
  (941593524090738200, [0x4e3262ef]);
  (941849606176905700, [0x527f]);
  (942106345727430200, [0x7e6a7ed8]);
  (942363746126947500, [0x56db]);
  (942621810786296700, [0x63f492749451]);
  (942880543142791800, [0x7f8e]);
  (944447154817231600, [0x54065e7f5ee3959395f4]);
  (944974860527316100, [0x659f]);
  (945239761344473800, [0x6620]);
  (945771677492233700, [0x4e917fa17fa896f2]);
  (946038700347821600, [0x594f94729576]);
  (946306438124893200, [0x4e6666f8984c9898]);
  (947113979525447800, [0x598a]);
  (947655986272381800, [0x64546f15]);
  (947928095283817700, [0x59848cc78d44]);
  (948200946749138200, [0x804a]);
  (948748893325600700, [0x65a5]);
  (949023996662789700, [0x542d60c5]);
  (949576484255986700, [0x69ae8363]);
  (950410981449204900, [0x683d]);
  (950690701911311000, [0x54106f84]);
  (951252501141733300, [0x5fe07ad68a728be58c4e]);
  (951534588775897400, [0x6649664b6db58854929c]);
  (951817474395945000, [0x54fd6212]);
  (952101162529465100, [0x7184]);
  (952670964640928900, [0x88f8]);
  (952957087869032000, [0x8af78bbd]);
  (953244032111827400, [0x98179887]);
  (953531802094588900, [0x79c196349670]);
  (953820402583502300, [0x4e0e55a782078b6c90599065]);
  (954109838386138900, [0x59486ee56feb]);
  (954400114351934900, [0x5e78]);
  (954691235372680900, [0x54ac]);
  (955276032360923100, [0x67af6de4]);
  (955569718328254100, [0x7c07]);
  (955864269351229700, [0x540a54365450640f79c9]);
  (956159690540973000, [0x767d]);
  (956455987054038600, [0x5ba05bf57d217eba]);
  (957350180791604700, [0x60e861586363641780bf816b8ca98d299aa8]);
  (957650031091230500, [0x6b21]);
  (957950783197626000, [0x675f]);
  (958252442551568400, [0x5934982d]);
  (958555014643222200, [0x5dee]);
  (959162919250860400, [0x5b755fcc601c6073619061c7786c]);
  (959468262999549500, [0x4f0f6170]);
  (960081761856301000, [0x780d]);
  (961009125534834000, [0x592268a6]);
  (961320167776273100, [0x4e3052d88c50]);
  (961945169810790400, [0x525692b79500]);
  (962574102701546700, [0x8cc48d3f96d5]);
  (962890058730583600, [0x58576d82]);
  (963524981498449400, [0x6296]);
  (964163961308326600, [0x5760589c8aa38bec]);
  (964807050341355700, [0x5524559a7b5b7be9917f91c0]);
  (965454301791917400, [0x52d2]);
  (966105769894036600, [0x64006519]);
  (966433102428533700, [0x5fa15fd9627064fe79a6]);
  (966761509948652700, [0x6f0f710a]);
  (967090999538338000, [0x55826bcf90179935]);
  (967421578351787800, [0x8f038f83]);
  (967753253614387200, [0x54c6624e8001]);
  (968086032623654600, [0x6bd7]);
  (968419922750206100, [0x62bc762b7671]);
  (968754931438734300, [0x8fdf9072]);
  (969091066209005000, [0x69a8813881c9]);
  (969428334656868700, [0x6cbe]);
  (969766744455292900, [0x7aa57aba]);
  (970788899862446500, [0x53e4]);
  (971131953372125500, [0x4e6053e05ac95bd25de76ce2758a7fd28a138bad]);
  (971476187791222800, [0x5708]);
  (971821611278031700, [0x547b]);
  (972168232075680200, [0x5b55]);
  (972516058513312700, [0x5c4f]);
  (972865099007289500, [0x57fa66437529]);
  (973215362062409800, [0x584c]);
  (973566856273154200, [0x6b678033]);
  (973919590324951100, [0x5b5d6108]);
  (974273572995463500, [0x620f6232]);
  (974628813155900200, [0x64e6]);
  (974985319772349800, [0x657065789813987f]);
  (975702168720211000, [0x6700]);
  (976062529470541000, [0x62898b6f8bd1]);
  (976424193517559800, [0x543b581558ae8cbb8d39]);
  (976787170322617700, [0x6577717d8c41]);
  (977151469450467800, [0x62e964c791e39493]);
  (977517100570778800, [0x8f3e8f97]);
  (977884073459675000, [0x5a017d817ed196f7]);
  (978252398001304800, [0x8815]);
  (978993142129090900, [0x4f46541f]);
  (979365582038189200, [0x6020753596fb]);
  (979739414249249800, [0x4fd851a463e3679774dc]);
  (980114649211105000, [0x6123]);
  (980869369774643100, [0x795e]);
  (981248876871498300, [0x52ab96359663]);
  (981629829713165000, [0x911999b49a6f]);
  (982012239357005400, [0x7f9e8e0c8e8a]);
  (982396116987722000, [0x77a977da7dbf7ef5]);
  (982781473919321000, [0x64906491]);
  (983168321597113000, [0x667a983b9891]);
  (983556671599752800, [0x63ba647b]);
  (983946535641318600, [0x8d748edf8f6f]);
  (984337925573432100, [0x76d684cb]);
  (984730853387421200, [0x70b8]);
  (985521371338132500, [0x591c]);
  (985918986176096400, [0x8f9c]);
  (986318188303050100, [0x4fae5480]);
  (986718990442804000, [0x7d057ea2808380858b4f8ba5]);
  (987121405472776600, [0x6cb88e72]);
  (987525446426477000, [0x80388073873f897f]);
  (987931126496038600, [0x56e2571891779633967d]);
  (988338459034802000, [0x7e8c7eed]);
  (988747457559954600, [0x7269]);
  (989158135755220000, [0x5ac15bb6]);
  (989570507473606200, [0x4f59675c8a738be69918]);
  (989984586740209200, [0x778e]);
  (990400387755075700, [0x51ac5956734e]);
  (990817924896123800, [0x627c]);
  (991658265975761700, [0x500d5c1699c19a73]);
  (992505728674858800, [0x51cc]);
  (992932168553504700, [0x89d2]);
  (993360434732704800, [0x50f560e761fc659776b176ba9b25]);
  (993790542922643800, [0x6b3d94a69769]);
  (994222509037095400, [0x60e66d476f86]);
  (994656349196955200, [0x6c90]);
  (995529717193830700, [0x63466bd2]);
  (995969278341134500, [0x634d70f97be1]);
  (996410780162046300, [0x6012655e67436b0a6da66f64]);
  (996854239868832800, [0x6b86]);
  (997299674903770800, [0x501a607075b2]);
  (997747102943263000, [0x632b8e299a5f9aa4]);
  (998196541902046900, [0x8df58e10]);
  (999101525454038600, [0x640164f1]);
  (999557107107624700, [0x67aa69cd7cdf]);
  (1000014773810365800, [0x574f58de76ea7e2b7f1d7f7583619a82]);
  (1000474544735228800, [0x77299676]);
  (1000936439320858400, [0x54c46e106f387a9291dd9488]);
  (1001400477276508600, [0x4e5e61ca]);
  (1001866678587089700, [0x76887728]);
  (1002335063518332300, [0x644a6524]);
  (1002805652622073600, [0x536781e5]);
  (1003278466741668100, [0x70ab754c]);
  (1003753527017528000, [0x5e2d5e875eb75ec970ae]);
  (1004230854892793600, [0x4fe8513c5175690d99529976]);
  (1004710472119143000, [0x8a5b8bc5]);
  (1005192400762738000, [0x9cf49e23]);
  (1005676663210316800, [0x4e955475618e899389c5903e]);
  (1006163282175434000, [0x5c60]);
  (1007143682185096100, [0x78c1]);
  (1007637510349154300, [0x607c60f16b6a6d1e]);
  (1008133789283367300, [0x8dfa]);
  (1008632543434471200, [0x545c55da67178dfb8e8b]);
  (1009637577019821300, [0x5974]);
  (1010143907215476000, [0x6ea27a837aca8a508bc8]);
  (1010652814166223100, [0x9189]);
  (1011164324232900200, [0x6897821e]);
  (1012195261198786300, [0x51f952e48cd18d4892b39510]);
  (1012714742886496600, [0x4e1b53e25f026ce175708a858bdb]);
  (1013236937284611700, [0x51b0526a63aa70d8]);
  (1013761872873226200, [0x665566886ef4]);
  (1014820083806279900, [0x68397f817f88]);
  (1015353418403816100, [0x517860f97a3d]);
  (1015889612717954700, [0x557c]);
  (1016428697581442400, [0x793c79ae8ad28c05]);
  (1016970704328376300, [0x63426d536fc38fc2]);
  (1017515664805132800, [0x5b9b8aa68bf5]);
  (1018063611381595200, [0x65c197389ce59e1f]);
  (1018614576962692200, [0x6e328cfd8d5b]);
  (1019168595000253900, [0x54fa]);
  (1019725699505199200, [0x533b8eca8f6691ab]);
  (1020285925060066200, [0x64c26c386dcb795b8010]);
  (1020849306831892000, [0x62b9]);
  (1021415880585459700, [0x6b3e75be9a199a97]);
  (1021985682696923400, [0x6028631f633e6c72811a817387029010]);
  (1023135120639496900, [0x5f31]);
  (1023714832407929400, [0x518a518c61a797ad]);
  (1024297924439008900, [0x609461d261f6]);
  (1024884436384248700, [0x5486597859e6]);
  (1025474408596967500, [0x54956f2b72d08cdc8d50]);
  (1026067882148948800, [0x54bd77eb77ef901f]);
  (1026664898847599300, [0x5b9c7838]);
  (1027265501253620500, [0x62fe6545]);
  (1027869732699216800, [0x54fc56e4]);
  (1028477637306855000, [0x522e52c75bb4958095e8]);
  (1029089260008598600, [0x4eba800c]);
  (1030323843590828600, [0x652b]);
  (1030946898565892000, [0x8212]);
  (1031573859867251600, [0x659c6c116c796d3675af760b77ad]);
  (1032204776786578100, [0x5ab2656675ca]);
  (1032839699554444000, [0x561f]);
  (1033478679364321100, [0x86fb8715]);
  (1034121768397350200, [0x7e617ee3]);
  (1034769019847912000, [0x532e53317f577f8583498d66]);
  (1035420487950031200, [0x516867426781697596dc]);
  (1036076228004647000, [0x5267528756b78403]);
  (1036736296407782400, [0x75977642]);
  (1037400750679649200, [0x592e602a68487cdc8511]);
  (1038069649494728900, [0x56da]);
  (1038743052712863200, [0x4e2a500b679071ac]);
  (1039421021411401100, [0x57ae7cfb]);
  (1040103617918441000, [0x574d60dc]);
  (1040790905847217300, [0x4e9f5019786b8aa08bda]);
  (1041482950131674700, [0x64a97e5a7f2d7fa4]);
  (1042179817063284000, [0x519c6bb46bc68a6e8be08fb290429bae9c9c]);
  (1042881574329148700, [0x515c8ecb8f679014]);
  (1043588291051458000, [0x714e]);
  (1044300037828344300, [0x592f5f716002616b66026d0b8ff0901b]);
  (1045016886776205600, [0x5c3e80c18105]);
  (1045738911573554300, [0x730e73757e457f2b7fd87ff9800d8ca78d2b]);
  (1046466187506462300, [0x56006d3d8e099418949f]);
  (1047198791515669600, [0x7d9c7efc8046886c896f]);
  (1047936802245431800, [0x5e7b6252725f7267804c807780f681a0]);
  (1048680300094183700, [0x60ef6163753b756b7dbb7efd8912]);
  (1049429367267099300, [0x606f662d6c2f80a98cf48d56]);
  (1050184087830637700, [0x901e]);
  (1050944547769159600, [0x5b09623f62f777a580869808987b]);
  (1051710835043716600, [0x592d605577d7]);
  (1052483039653107600, [0x5d4c5e7d63b364c47cca7f7281e382cf8607]);
  (1053261253697313100, [0x51ef51f1543c56fe571664d28fb1]);
  (1054045571443415600, [0x56685c385c4d82df916c]);
  (1054836089394127000, [0x6d048cbd8d3b]);
  (1055632906359044700, [0x778c7d1b7eb7]);
  (1056436123528771100, [0x5f18626f]);
  (1057245844552033100, [0x4f0a5f9279cb]);
  (1058062175615949100, [0x574762d072d9]);
  (1058885225529600800, [0x6eba80c681bd]);
  (1059715105811070200, [0x4f6f8ab98bfd]);
  (1060551930778121800, [0x530d634f716e7ddd7f0983528dcb]);
  (1061395817642708300, [0x6c6193df94f2980c9882]);
  (1062246886609499300, [0x51a0614e75bc86508f9f95e2]);
  (1063105260978638400, [0x6162]);
  (1063971067252949800, [0x56ca6d1270518cc08d3a]);
  (1064844435249825200, [0x6e9c797779b1]);
  (1065725498218040800, [0x51cb5acc6cb9]);
  (1066614392959765400, [0x585e8ff8]);
  (1067511259958041400, [0x63a38037]);
  (1068416243510033100, [0x53ca57065713658b6bbf8e429f4b]);
  (1069329491866360400, [0x5b815be77a0b87378b398c288e22]);
  (1070251157376852900, [0x62da711571657db27f51892a8f2f8f91]);
  (1071181396643084200, [0x4ff1535553c955ae620d6d4e6fdf726280be814e]);
  (1072120370678068100, [0x5ead63fd652c751a]);
  (1073068245073522500, [0x4e734ec7773a9f0e]);
  (1074025190175137500, [0x5431571f65836bd9846c97a0]);
  (1074991381266311300, [0x5f70605090fd9157991e996f9a5b9a7f]);
  (1075966998760847700, [0x54d756295c065c076069665a]);
  (1076952228405148800, [0x534855c5606a62736d4f700f]);
  (1077947261490465700, [0x4fa850d153615bb05c3f5fcf61fa7c97]);
  (1078952295075815800, [0x5bbf90ae90f5934d954096de9e21]);
  (1079967532222217700, [0x60148c8c]);
  (1080993182238936600, [0x51ed563656e061918aeb8c0f8c6a]);
  (1082029460942491100, [0x5b9870e4]);
  (1083076590929220700, [0x55eb568e56c173ed8892]);
  (1084134801862274400, [0x5520562e5c946367]);
  (1085204330773949300, [0x59d177378b198c26]);
  (1086285422384370800, [0x665266ec9f3b]);
  (1087378329437589700, [0x4ea25ba2645272e0]);
  (1088483313056248400, [0x6b8a70eb71d9]);
  (1089600643116060800, [0x4e095364639066256c997504788e7a777aae9e75]);
  (1090730598641454200, [0x550657a658be683c6b3290c19b31]);
  (1091873468223816300, [0x54926e6e7d5e7e437ede7ef789b289d0]);
  (1093029550463924000, [0x93d6]);
  (1094199154440243200, [0x59625abe642a6c496f2277857d8f7ee5835f85888f1f8f8d975e]);
  (1095382600204943400, [0x53e657ab588a63c985d089ac89ca]);
  (1096580219309615000, [0x4e086cfc6f51]);
  (1097792355362849500, [0x60b28e31]);
  (1099019364622030900, [0x6f6e92239499]);
  (1100261616621886600, [0x4f2b4f4750bb563b62c862cc6f8e75f488f9]);
  (1101519494842572700, [0x59515c71634e7070707c]);
  (1102793397420315600, [0x60bc6168667e8fed]);
  (1104083737903906500, [0x52886402645f6d6977aa78be8d94942b954c]);
  (1105390946060641600, [0x4ed35009533f5c79648264ba651b86f087c4925b94c5]);
  (1106715468735643700, [0x4f1951ff55df5925672c6f31817082e59163947f]);
  (1108057770768857800, [0x52b252c1548b595a59925f776e296eab86958836]);
  (1109418335974435600, [0x5a365ea7611a62666ee46ffe731d780c93e49542]);
  (1110797668187669300, [0x4e8c60e0635e6488655b6582929894ed]);
  (1112196292385143300, [0x4f106ba16baf7e82]);
  (1113614755884338900, [0x55d464ac8a93904198fe9970]);
  (1115053629629548800, [0x505562c266966eaf76c877bb7fbd8eba907496c4]);
  (1116513509571664100, [0x4e49553e7a747fa98b208c238e528e638e66]);
  (1117995018150178200, [0x519b54a75bd35f03604d68c4772f77878d648ecd9811987d]);
  (1119498805886632200, [0x5f796065609f6da36e19803b]);
  (1121025553099711100, [0x6382729273b77b037be48b338bb48cb48d35]);
  (1122575971753307700, [0x5feb6deb7e087f798426]);
  (1124150807450121500, [0x564e77ff7926798579aa79d17dec7f05943594c1]);
  (1125750841584765600, [0x4f5d56096c8f98379894]);
  (1127376893671943700, [0x52aa591f59206479814c82db874987ec9183]);
  (1129029823867064800, [0x4e16539a6376654c65756f74702672b672c081ed871a8b5c8c31]);
  (1130710535698702800, [0x53f564ae7a0d]);
  (1132419979034632900, [0x4e2451696c7d6f207ff1]);
  (1134159153305819800, [0x54af55dc64bc65fa7a9d7aa98d0d8d61]);
  (1135929111015760000, [0x682a71268084900a905c]);
  (1137730961566027700, [0x4eb55fd76320649364e265387119893b8b0a8c0e970999b19a6e9ef4]);
  (1139565875432847400, [0x5c465c4a8ac28c0495b99609]);
  (1141435088734062700, [0x550f63b065a16cd572817b147b468b3e8c29]);
  (1143339908231132000, [0x548f66f2779178b37d467dbe7e967ea47eca7eeb8a60]);
  (1145281716816842300, [0x535c5a075b0c835085a688408cd28d4a8f298f88]);
  (1147261979546460300, [0x53f157515df763f68f1d8f89]);
  (1149282250278212200, [0x534a55bb95ca96149f9c9f9f]);
  (1151344178998485600, [0x555c58c567898af18bb3]);
  (1153449519918269000, [0x54469082925794b3]);
  (1155600140440365400, [0x4f50514751f661276233661f71a872e97aed7c4d817b81a9905096ea]);
  (1157798031112242800, [0x542e666f70759748]);
  (1160045316697448700, [0x70c2718f721b76f277f380a181c6]);
  (1162344268519918500, [0x53cb540470df715976d0788d791982738277864e8a468bcb9152994b99889e7d]);
  (1164697318260938000, [0x53cc5ad66cb37164785d7dd87f0496d9]);
  (1167107073418844000, [0x5239524e53e85de56155673d8e81917893189524]);
  (1169576334677881100, [0x524363ea6d466f3f853d8a8a8b04]);
  (1172108115476310200, [0x548259375b73644864ef6cbd70e6716971ce88f18ae68c1b8f448f968fb9908a]);
  (1174705664116636200, [0x541d8a9e8bed8c629068]);
  (1177372488824852300, [0x563461f562e363c0808c819c8af38c19]);
  (1180112386243663800, [0x51fd5321551077c77a968ab28bfe9b3c]);
  (1185828227627658600, [0x55445faa606860b66b837792779e7d617d6e7edc8385849e95f7]);
  (1188813523942626700, [0x50b252015f876216780178bc7978798d8b2b8c2a]);
  (1191890689809302200, [0x624762d76cc577e27a9c7ac47cc580c081398a0a8a6d8baf8be190229661]);
  (1195065559640760200, [0x62ed651265226fe176ca79bf79c37e557f2e8a238bc08ce48d3190ca]);
  (1198344541923059300, [0x51c95f0f5f695fc661b664ce6dbc76b276b880a28a158baa8e598e7f8ea5920d949d]);
  (1201734697090627400, [0x58c15be15ed36d74745f78b18a1b8bb99e7c]);
  (1205243829071754500, [0x534162ee63e964136cfb70099ea59ea6]);
  (1208880593488842000, [0x4f1e50986078615f64b565066ccc6ce36cef6d456dfa715e77a086ca88318a718bdd8dbf96689695]);
  (1212654626287126500, [0x52c36063883296f69ec39ec4]);
  (1216576697602454800, [0x536b6361641464bf885b92b995089be89cb8]);
  (1220658897054480200, [0x552c58755a495c185de86b276b506b926b9e732578c5836b852d963f9c139cc39ecf]);
  (1224914858496359700, [0x59736004616a66746cc970db714571ed8a708bd8]);
  (1229360034753443300, [0x4e5c527d538953b25f9c5fd6602160276120614d61a9620e6cca6e2072de7370779f77ee79d88e1f96469678]);
  (1234012036316932500, [0x504e5443556e55f756d3579258d85b175f115f1262f367ad689f868087558a868bd3926492e494a995049b5a9c7c]);
  (1238891052733875700, [0x5401546255915bb5624168b06d95752d755c78257c7296fe972797a3]);
  (1244020382172630700, [0x4fed5109539854c25986599d80898e6c927894f0]);
  (1249427104299658400, [0x5076541b67616809689d6adb7389820c914c]);
  (1255142945683653200, [0x5353590f5bc260d1631b652368cb6e856ffa75308e49925a94c6]);
  (1261205407865296700, [0x4ed75fe475377da07eff837c8d058d58966996aa98249890]);
  (1267659259979053800, [0x5b70615161fe621566686c2e76828e2f8e91905b98219889]);
  (1274558547127749000, [0x4e114e544ed955ac61a862e764f072ce832b86ee883b89449021919c929394e8]);
  (1281969344343121000, [0x4ea8558b56bc651866646b496d8e7c2a7cd67d137ebe83f28e7c91ce95cc961196c0]);
  (1289973615110474700, [0x52115471599660156234628062c464b764f7684668d26c81729f7b8d808780a0817881e786c7871787789375952e]);
  (1298674752809437800, [0x4ea9520d5241559f55e55ae1614c679570ad732b755d76b47da27ef88111816682bb8c938ddb9165]);
  (1308205770789870200, [0x4e4c56585a5a5eb85f8b60a06587668c6b436c3070cf74e276c676df771f874788058a1d8bb6969c96c598e299659f20]);
  (1318741822355652900, [0x51a560966221625b76e5809a85fb864f865c8e518ea18ef28f71903897dc97ec9ee99ef7]);
  (1330520125921291300, [0x522852b152f553f853fd542754c85578562f56305de65f13631e63b764bb64f2664f6a356d016f54709973e9754b827a; 0x829f85dd8822892b8e489175929194e3]);
  (1343873265183743500, [0x4e07513f5152592a5cfb5f6a634563d666f3679c6b646da46dc66dec6e0e6ecc700672d7798f7fd5842c8e4096759f3e]);
  (1359288333166469300, [0x4e014e4f4f264f88502b51eb55e459245c25634b647a65cc65f766e06ce57259775a79687f54821485438dba8e41918b; 0x9ce7]);
  (1377520488845864800, [0x4ec64fcf50d552a356ff5b405d165e935eab602f607b60fb62e2637b64d8650f6c2472e17de37f188272834f839e89f3; 0x8b018b2c8c128c2c]);
  (1399834843977285800, [0x4f1b50b45352550956d459d85ca962a063776410647365e76c286c70709671c9724775788019820a85b086c088e3895d; 0x8a6c8aa18bdf8beb916992fc932893a994a294e9951a992899869a629a749edc]);
  (1428603051222463800, [0x4f515106561856535a9a5bf85d2d5d84684e6ca56da96e146f016f806fef701d768777dc7a057a0e7a767fe980f389bd; 0x89c88b6b8c358d67931a94ee96cc9efd9efe]);
  (1469149562033280400, [0x4ed6501851705203545b55c656ed57125be45f90610661ac643d649966fc675167d4762a765f7a577b527f9a802a862d; 0x88218a698acd8bd78be48cfb8d598dcf8e2e93269526960b964c971c984698979b299c579cde]);
  (1538464280089274700, [0x4f8350435085514651e052085484552755435a925b8f5ba65c425c645e7e62f46339673567736c576d2a6dae79e97e37; 0x7f15826f836f85e5888588ca8a7f8b178bd68c248d9191d8948995d5961998e89957])
].
(** prob_emit.go:25356-25374 probEmit, state 153 *)
Definition emit_153 : list (Z * list Z) := [
  (13751045546615960, [0x6301]);
  (258929226895135700, [0x540c]);
  (367219426471314850, [0x9006]);
  (472510439990040250, [0x5f80]);
  (491778874372990400, [0x958995ed]);
  (566222921867740000, [0x72e1]);
  (589861799674163000, [0x575a5805]);
  (640944362050762100, [0x5192]);
  (666075804878852650, [0x5b9b]);
  (690192010560541500, [0x8d85]);
  (722037383672394900, [0x5077]);
  (791352101728389500, [0x5012]);
  (860666819784384000, [0x4e2556b481ea8db3])
].
(** prob_emit.go:25375-25375 probEmit, state 154 *)
Definition emit_154 : list (Z * list Z) := [].
(** prob_emit.go:25376-25377 probEmit, state 155 *)
Definition emit_155 : list (Z * list Z) := [
  (0, [0x7b49])
].
(** prob_emit.go:25378-26937 probEmit, state 156 *)
Definition emit_156 : list (Z * list Z) := [
  (275049039118403000, [0x53d1767c]);
  (299310250982234340, [0x751f]);
  (305208778700934500, [0x6295]);
  (348400534770159300, [0x5f71]);
  (353002617122911880, [0x7814]);
  (354282076274917120, [0x5de5]);
  (354688436147893030, [0x8abf8c03]);
  (378422229272625400, [0x5206]);
  (381201460036121050, [0x53d88b8a]);
  (382617812830407630, [0x7ba1]);
  (403798034197761800, [0x6d3b]);
  (410566094157725200, [0x98109884]);
  (420659465487538500, [0x5efa]);
  (425058149852191750, [0x8fd0904b]);
  (427924218052206000, [0x6709]);
  (433148718380452100, [0x8fdb9032]);
  (436630912210753100, [0x6539]);
  (439608703770300600, [0x6d88]);
  (449742121351805800, [0x76d176e3]);
  (451993602981130000, [0x52b352de]);
  (452639916797695600, [0x6d41]);
  (454946928533928800, [0x670d]);
  (457778072491623500, [0x92b79500]);
  (459284000043625500, [0x8cbf8d38]);
  (462094943535814100, [0x9769]);
  (467044641106880750, [0x8a2d8bbe]);
  (468632389193150300, [0x51fa]);
  (471587875872231000, [0x7d937ecf]);
  (476930062986775700, [0x5408]);
  (480366428648881100, [0x6559]);
  (481523711594660600, [0x53cd]);
  (486951162461330600, [0x7d717edf]);
  (491495934254162600, [0x5e9461c9]);
  (494203318867908700, [0x91cd]);
  (494798002465690400, [0x68c06aa2]);
  (500802965843641400, [0x878d]);
  (501602388705704500, [0x7d9c7efc]);
  (509435032544742700, [0x884c]);
  (512968827263065300, [0x4f9b]);
  (519122021376430800, [0x7a81]);
  (519798068003152600, [0x52a0]);
  (521564118318347600, [0x7ade7af6]);
  (532050689427900550, [0x8003]);
  (533270064994401600, [0x901a]);
  (534099736629785900, [0x51b2885d]);
  (536501487231247950, [0x6d4b6e2c]);
  (538618383215050800, [0x65979b25]);
  (541295202569000800, [0x5b9e5be6]);
  (541458113275679900, [0x71df8425]);
  (541621289814470500, [0x8ac78c08]);
  (541702978042294300, [0x521b5275]);
  (542386320868116800, [0x5bf95c0d]);
  (546931282594738300, [0x4f2050b3]);
  (547680349767654000, [0x62186230]);
  (547825046652978400, [0x4ea4]);
  (549932236121189000, [0x6ce2]);
  (553883888859599300, [0x56fd570b]);
  (559809905708700100, [0x5b9a]);
  (560959154936243700, [0x52dd80dc]);
  (564146809494232600, [0x50a851328a668bd5]);
  (569756411830399840, [0x8a558bc4]);
  (570226320520858100, [0x65c5]);
  (570552940299520200, [0x4f18512a]);
  (572276172675692150, [0x652f9632]);
  (579283823673185700, [0x6307]);
  (581530207744298600, [0x8fdd9055]);
  (583042601174038700, [0x914d]);
  (583828216130490500, [0x6bd4]);
  (584913368682103400, [0x81ea]);
  (585671586299374300, [0x5faa]);
  (586520848303939700, [0x79fb]);
  (591638956287260150, [0x8a138bad]);
  (596231131345824100, [0x4e8f8667]);
  (597033211607145550, [0x51cf6e1b]);
  (597555654020826200, [0x63a191c7]);
  (597698613301785600, [0x5ba3]);
  (598512599122441300, [0x886588dc]);
  (598801477513030400, [0x8868]);
  (605893814914731300, [0x72af]);
  (606412757438953900, [0x5a01]);
  (608995246147568800, [0x54a88aee]);
  (609155545407114400, [0x4e89722d]);
  (609423283184186000, [0x7d047ea6]);
  (610122774871365200, [0x6297]);
  (612195953324469400, [0x4e3b]);
  (616360877171120200, [0x6df7]);
  (618041589002758300, [0x6c61]);
  (621490206609875200, [0x56de]);
  (621550720983885300, [0x6311]);
  (621853843374213600, [0x8a348bc9]);
  (624624103629147150, [0x5347]);
  (624874103759355700, [0x62b5]);
  (625564844339336700, [0x73b073fe]);
  (626514519093062500, [0x8f498f6c]);
  (626578152566415500, [0x96f6]);
  (630273872992238300, [0x6574]);
  (632275274019245100, [0x62c564d4]);
  (634180093516314500, [0x65bd]);
  (634731059097411500, [0x5ba15be9]);
  (634938456337324400, [0x9057907a]);
  (635842181639918550, [0x89c089c2]);
  (637319521206696200, [0x7d507ed3]);
  (637390418054756200, [0x6551]);
  (637816857933401950, [0x5236]);
  (638030761758276900, [0x4ee3]);
  (638102164831642700, [0x5c04]);
  (638173618925429500, [0x98189886]);
  (640341333863132800, [0x704c]);
  (640560712378904100, [0x5931]);
  (640853967721031800, [0x9707]);
  (641443071044755600, [0x5fae]);
  (641516953574898900, [0x4fdd]);
  (641738929248730100, [0x517b990a]);
  (642706558681783300, [0x57f76267]);
  (644289705203451400, [0x5230]);
  (645589914724917700, [0x7acb]);
  (645666926665574100, [0x6536]);
  (651373704742362000, [0x57f9]);
  (651782368980907200, [0x4e135c08]);
  (653934769955416500, [0x6e38904a]);
  (654186131629448100, [0x753596fb]);
  (657425971685173100, [0x8f148f85]);
  (659616159977011400, [0x8a8d8ba4]);
  (660505845560785150, [0x63f4]);
  (660863948002555700, [0x793e]);
  (661855393708273600, [0x683d]);
  (662309320951615450, [0x517395dc]);
  (664796782228902900, [0x4ea77522]);
  (666111355150153200, [0x59048655]);
  (668502669480013800, [0x5f80]);
  (671949588760831200, [0x5e7f5ee3]);
  (672855483229706400, [0x4fb5]);
  (675001707664319900, [0x9020]);
  (675312106258079050, [0x4e3481e8]);
  (687297878777803500, [0x92749451]);
  (690744446889608500, [0x5f375f3a]);
  (690986577758509600, [0x8ad68bba]);
  (691350876886359600, [0x5a1b5a31]);
  (692574882375809900, [0x540e5f8c]);
  (694188821815350200, [0x6f14]);
  (695448284307390200, [0x5224]);
  (697367729033004900, [0x6e05]);
  (698276236255252100, [0x4e00]);
  (700251283996993700, [0x7d277dca]);
  (700384351215564100, [0x5f526b787dad7ef4]);
  (701859897772156100, [0x529e8fa6]);
  (703494811572309100, [0x8cfc8d2d]);
  (704322402502695100, [0x532f6c47]);
  (705717125250780100, [0x62db]);
  (706421849802320350, [0x6279]);
  (708421916472987300, [0x9644]);
  (711946510379154800, [0x8d77]);
  (712395949337938700, [0x590d]);
  (714673952171120700, [0x63a2]);
  (714981644721568600, [0x52d88ca08d1f]);
  (715755043781542300, [0x8b66]);
  (718909879555034900, [0x5927]);
  (719230907118059700, [0x5f00917f91c0958b]);
  (721179020675241900, [0x4f2450b7]);
  (721507428195360900, [0x583162a5]);
  (723165840996914400, [0x8fde9023]);
  (724343314651367800, [0x9a459a71]);
  (726567529524739900, [0x731c]);
  (728136872979344600, [0x6210]);
  (729019491242171700, [0x63a7]);
  (730628105017334200, [0x5728]);
  (733553359301077900, [0x514d]);
  (734860567457813200, [0x653b7bc08282]);
  (737914239843821400, [0x5305]);
  (738108226325604000, [0x5b58]);
  (738692453888026900, [0x6392793a]);
  (738887957371607200, [0x884d]);
  (740864306283491100, [0x5956734e]);
  (741665913782314800, [0x8d168d4e]);
  (742069140135108600, [0x7528]);
  (742271364673185400, [0x8fc7904e]);
  (743493375806662900, [0x5370]);
  (744523251026720350, [0x5f815fb5]);
  (744938189381401550, [0x98db98de]);
  (746193435988513500, [0x63a8]);
  (746615377542784300, [0x9694]);
  (747039106990335900, [0x8015]);
  (747251646921567200, [0x591a]);
  (748752210983354250, [0x4f539ad4]);
  (748968427283803800, [0x538b58d3]);
  (749619895385923100, [0x8de8]);
  (750275635440539000, [0x542f555f]);
  (752717488175353600, [0x8df3]);
  (754990313283109200, [0x5357]);
  (757315999499535900, [0x6469]);
  (758499445264236300, [0x96c6]);
  (758976773139502000, [0x4e16]);
  (759456390365851300, [0x8054806f]);
  (760909200422142300, [0x63d0]);
  (762136209681323700, [0x548c]);
  (762383428595862600, [0x4fc3]);
  (764383495266529600, [0x627f]);
  (766424382429650300, [0x7b54]);
  (768507791119934500, [0x54689031]);
  (770904710131234200, [0x89e3]);
  (771988731586520600, [0x8a988bf1]);
  (773914513246962100, [0x534f5354]);
  (775878110698648000, [0x70bc7149]);
  (776731600943631700, [0x9a579a8c]);
  (777881038886205200, [0x6838]);
  (778170474688841600, [0x51b7]);
  (779043842685717100, [0x6d6e]);
  (779630354630956900, [0x673a6a5f]);
  (780813800395657200, [0x641c]);
  (783835178255306900, [0x4fee767b]);
  (784142398159003900, [0x5c55]);
  (784450564812744700, [0x540c]);
  (785692816812600500, [0x5fe76182]);
  (788867686644058400, [0x52a9]);
  (789514938094620200, [0x4e0a8cbc8d34]);
  (789840141633258000, [0x4e2d]);
  (790493738731236500, [0x5c60]);
  (791151635841040700, [0x4f11]);
  (791482214654490700, [0x6d77]);
  (791813889917090000, [0x632f7da07eff]);
  (793827380757995600, [0x68076a19]);
  (794166939658109500, [0x516c8a088ba1]);
  (794849536165149500, [0x79bb96e2]);
  (795192589674828400, [0x8f388f93]);
  (795882247580734400, [0x78b0]);
  (796576694816015500, [0x4fe1]);
  (797980226627653900, [0x8ca78d2b]);
  (801944709762377900, [0x503c]);
  (802313034304007500, [0x8d70]);
  (803426218340892000, [0x674296dc]);
  (804175285513807700, [0x516879c1]);
  (805690466015868000, [0x737283b7]);
  (806072875659708300, [0x666e]);
  (808398561876135000, [0x4f1a6703]);
  (808791489690123900, [0x72ec7368]);
  (809185967519225500, [0x6b6375c975d9]);
  (810378824605753000, [0x53e353ef]);
  (812399095337505000, [0x9000]);
  (814878561198826600, [0x5217627064fe7275727d]);
  (815297849024830200, [0x5bc46db2]);
  (815718902278464600, [0x88c588dd]);
  (818283145339798200, [0x6ed1]);
  (818716985499658100, [0x95b19605]);
  (819590353496533600, [0x99d09a7b]);
  (821360311206473700, [0x4e265e76]);
  (823162161756741500, [0x5e73]);
  (823617743410327600, [0x964d]);
  (824075410113068700, [0x51b36c7a]);
  (824535181037931700, [0x50656d89]);
  (825461113579211400, [0x6253]);
  (825927314889792500, [0x554f78cb95ee]);
  (826866288924776400, [0x6298]);
  (827339103044371000, [0x529d52f85e38]);
  (828291491195496500, [0x611f88c1]);
  (831204318487799000, [0x526962a48b778fa98faf]);
  (832693179737174000, [0x4e0b509959077206]);
  (833194433919528300, [0x526a90599065]);
  (834713450468926000, [0x5916]);
  (836255897501489000, [0x59d4]);
  (837822509175929000, [0x53c253c3]);
  (838880720108982700, [0x63a5]);
  (840489333884145200, [0x678469cb]);
  (842124247684298000, [0x4ef2653e]);
  (842675213265395000, [0x678169756b96]);
  (843229231302956500, [0x6b3a795d7b56]);
  (843786335807902000, [0x6309]);
  (846046318999626300, [0x822a]);
  (846619386470524700, [0x52c3626964f466b4]);
  (847775468710632300, [0x88ab]);
  (848358560741711700, [0x4e0d]);
  (848945072686951500, [0x7e7c7ee7812b8131]);
  (851326137556323400, [0x5de18af78bbd8fce]);
  (853149896311301400, [0x675f898f89c4]);
  (853765282868739200, [0x802680b28a028ba2]);
  (854384479893531300, [0x57a658be]);
  (855634496169954400, [0x5546602776f4]);
  (856265413089281000, [0x65b0]);
  (856900335857146800, [0x535a9996]);
  (858182404700052900, [0x8d8a]);
  (858829656150614800, [0x81f4]);
  (859481124252734000, [0x6c886c89]);
  (862130285797431700, [0x501f636263db]);
  (862803689015566100, [0x589e]);
  (863481657714104000, [0x657065788a508bc8]);
  (864164254221144000, [0x8cc78d44]);
  (864851542149920100, [0x67406bba76d776dc]);
  (866942210631851600, [0x7f8e8870]);
  (869799547876257200, [0x6da66f64]);
  (871259427818372400, [0x50ac63a9]);
  (874244724133340500, [0x5f537576]);
  (876543675955810500, [0x56175c1d718f]);
  (877321890000016000, [0x93ae9547]);
  (878106207746118500, [0x520760e961f298fd9971]);
  (878896725696829900, [0x6f2b8212]);
  (879693542661747500, [0x7f3a98129881]);
  (881306480854736000, [0x5047]);
  (882945861832303600, [0x5c01]);
  (883775742113773000, [0x5e725e79]);
  (884612567080824700, [0x53d6]);
  (885456453945411100, [0x610f]);
  (886307522912202000, [0x5806]);
  (887165897281341200, [0x52436697]);
  (889786134520743500, [0x635f640d963b]);
  (890675029262468200, [0x758f]);
  (891571896260744300, [0x5fc5]);
  (892476879812736000, [0x64a4]);
  (893390128169063200, [0x533b542b65e0712191ab]);
  (898085826477840300, [0x62767d2f8f098f7d]);
  (899052017569014000, [0x541e6b62]);
  (901012864707851700, [0x8a2a8bbf8f2a8f6e]);
  (902007897793168600, [0x5f395f4870ed71b190099078]);
  (903012931378518700, [0x4f8b7b5b7be98087]);
  (904028168524920500, [0x4e7054386c428cb7]);
  (905053818541639300, [0x5a5a805a]);
  (906090097245194000, [0x5bfc5c0e6dec907f]);
  (908195438164977300, [0x783479817b49]);
  (909264967076652100, [0x539f9650]);
  (910346058687073500, [0x5c456b8b6b98]);
  (911438965740292600, [0x53d7]);
  (912543949358951000, [0x76d876e4]);
  (913661279418763600, [0x8033]);
  (914791234944157000, [0x547566f470f97956]);
  (917090186766626800, [0x843d]);
  (918259790742946000, [0x6069]);
  (919443236507646200, [0x521d559d624e660f821e8d0a8d5e]);
  (921852991665552300, [0x770b82398cc08d3a9ebb]);
  (923080000924733700, [0x51c66025660e6e9679ef7a4d]);
  (924322252924589400, [0x50f167b696c7]);
  (925580131145275500, [0x4ed655b75674]);
  (926854033723018500, [0x629b62cb7e8c7eed]);
  (928144374206609300, [0x547c]);
  (929451582363344500, [0x4ed3500954c478e88fc19077]);
  (930776105038346600, [0x4eba6cbb9759975c]);
  (932118407071560600, [0x611b7231]);
  (933478972277138500, [0x5165776377e57a7a9012905e975e]);
  (934858304490372100, [0x8b938ba9]);
  (936256928687846100, [0x5a366f5b6f5c7c98]);
  (939114265932251700, [0x8349]);
  (940574145874367000, [0x543965f1]);
  (942055654452881000, [0x514955a77761]);
  (943559442189335000, [0x517161ca]);
  (945086189402414000, [0x51675185542962896292]);
  (946636608056010500, [0x4ece4f3a53d95f9e655867aa69cd8ca88d27]);
  (948211443752824400, [0x70928f158f7b]);
  (951437529974646500, [0x612461a462587d307ec6]);
  (953090460169767600, [0x505c622a]);
  (954771172001405700, [0x4fa7507453165bcc5f8562bd985b98a0]);
  (956480615337335700, [0x5feb]);
  (958219789608522600, [0x601d626b62c6638378be]);
  (959989747318462800, [0x4e324ea96388755d]);
  (961791597868730500, [0x632464e07e2e7f29]);
  (963626511735550100, [0x5bbd5bec63aa8a188bb08caf8d2e]);
  (965495725036765500, [0x8083808591ca91cb]);
  (967400544533834900, [0x552e57085e9f5ee270e771d2901f]);
  (969342353119545100, [0x563156d171268b708bae]);
  (971322615849163100, [0x51995beb638c]);
  (973342886580915000, [0x4e1c4fbf52df6771]);
  (975404815301188500, [0x5339727988c2]);
  (977510156220971800, [0x642c75c57d557edd]);
  (979660776743068000, [0x53567b517bc97de97f138ce3]);
  (981858667414945600, [0x4efb5de86dcb6fd27015]);
  (986404904822621400, [0x5272714e77eb77ef]);
  (988757954563640800, [0x5dee606b6da86f3278f78721881f9664966a]);
  (991167709721546900, [0x538c53ad629a64ab656365ad65b76b49755992ea94fa]);
  (993636970980584000, [0x50777f6e865a865b8fd89084]);
  (996168751779013000, [0x5192539853db56f4570d598a5eb762d6]);
  (998766300419339000, [0x5bc664586d1774068a0e8ba8]);
  (1001433125127555200, [0x4f5c5ea6716775338a3a8bca968f96a8]);
  (1004173022546366700, [0x4eff5f15649e89ba89c98aa48bef944494f8]);
  (1006990110243036300, [0x5974672a]);
  (1009888863930361500, [0x4fa650755582600061f768218cac8d238f5f8f70963596639935]);
  (1012874160245329600, [0x6dfb84999cf49e23]);
  (1015951326112005000, [0x656c7b797c4c8ffd]);
  (1019126195943463000, [0x52a852d5533a534055986fc08ca98cea8d288d2990019a379a5f9a9a9aa4]);
  (1022405178225762200, [0x52ab54555614682a80cc86d9]);
  (1025795333393330300, [0x53ec54ac60ca671f67e56c2772597e547ec784b88cb68cd18d2c8d489a5a]);
  (1029304465374457300, [0x4f9d54365450560957475fc38b1b8bb2932f9519994b9988]);
  (1032941229791544700, [0x51a5529f558a6355642d78c180a58b588bc68f038f8398c498d8]);
  (1036715262589829400, [0x507f511f54c0640f6c346e0e6eda6efe70067ffb8cdc8d508fc2900f91ce9686]);
  (1040637333905157600, [0x4e9253e0563264676b676cc46d296d536fc3758a7a009006]);
  (1044719533357183000, [0x5256602866ff6cd58aaa8acb8bf48bf78d858fed90fd]);
  (1048975494799062600, [0x5c655fcc8b4f8ba58fa8]);
  (1053420671056146100, [0x504f517c63d264ad662567d36a216d4f700f7de87f1693e49542]);
  (1058072672619635300, [0x4e2a500b522e53eb594959575b75601c61908e0f958995ed9ad8]);
  (1062951689036578500, [0x4e94503e50be5b895f026d78757076f8]);
  (1068081018475333500, [0x542c557c57507a7f7b7e7c3d804c8077807d]);
  (1073487740602361200, [0x4e0950f551b6526752875b885bfb5c0b6b7b6c11731b7d667df47ec37ed97f627f778aa58bf098a898ce]);
  (1079203581986356000, [0x51fd549259625f5576d07d217eba8e429304947d94bb970099c19a739e7d]);
  (1085266044167999600, [0x51cc51fb543554ed5df2621262fc64ca66136ecb786c90ae90f5]);
  (1091719896281756700, [0x4f5050125e7d629162e562e963a064c164c765a16b226b61723d773778257f817f8884c495f99b27]);
  (1098619183430451900, [0x523b525d526554c1595459845fcf61fa62f76c146c236f0f710a726972c2795e800180f88cde8d4f9050]);
  (1106029980645824000, [0x4e304e3e4eab514c5151519b5fc660b861b662d477017cbe82098aa38bec8c508ecd8feb]);
  (1114034251413177600, [0x4ef051f9533f5939593e5e035e0c60f3626c62cc63da6416644764ae6751796d7e737f347fa480f681a08986903c906e; 0x98f2996e]);
  (1122735389112140700, [0x4f3853ae540a5520562e57cb5edd64547e418cfd8d5b8fd199b49a6f]);
  (1132266407092573000, [0x4ed84f5453605c0a5c0f5d295e8660ef61636170617662967b2689d2]);
  (1142802458658355700, [0x51455178566856fe571658f060bc60e8615862d86349644664fa653f6c926ca16ca46f1a6f6e75f4780d7a3d7d228072; 0x88578ced8d4c8ddf8fb1969096b19806987a9ed89f13]);
  (1154580762223994100, [0x4ec74f345c315e265e366649664b667a671d690d6b666bc06bc172677b977ff180bf816b89e689f88cb48d358ff791cf]);
  (1167933901486446200, [0x4f014f10514b53bf59515ad65b665b7862156c996d1e6d456d696dfa6ede6eef6f0270ae7194774078c57ddd7e237f09; 0x8179845786ca88318b008c0b8d0d8d618dcb8e81911997ad]);
  (1183348969469172100, [0x4e244e584f4f516956fa5bb95c6f5e2e5e6b5ef6601263676500671769a86b3e6d3d797779b17cfe7d447e6a7ea07ec4; 0x7ed8801080e1851185cf89818d8b8da8]);
  (1201581125148567600, [0x51ac51f852125283544a547d56da586b5b5d5c5e5c6c5e085e2b5f7b5fb96065609462636321640564cb652a66a26ca6; 0x6dea6deb70e67169754575db7b147b467e457f2b7f9e803b89128dcc8fd4916c9577957f]);
  (1223895480279988700, [0x5019517551dd5220522a5406541f54fa553156e0584c593a596a5b175b8c5d4c5fa1606d6168623f6557656665e96b20; 0x6ba16baf6bd76cb96ef470b9717d718473cd76f279a679f07a317cdc7d057d817e5e7ea27ed17ed5808681c682738277; 0x83528a1b8b3e8bb98c298d259002906990bb91309676986b98a49ede]);
  (1252663687525166700, [0x4e5e4f0f4f30518d527f53675411559c56e25718571f5835591c59475b635b985c165de7627c628462c963cf65776587; 0x65a768b06bd26cb36e176ef27075730e737577ed7b807c2181e58a708b208bd88c238cc48ce08d3f8d548dd18df58e10; 0x8fdc906092239499959295e195f29610970997489813987f9ef4]);
  (1293210198335983000, [0x4eea4f594f865100514751c951f6520152885377543c5938594b596e5b095bdf5ed3603b60ac61f8620f623262e66325; 0x63a363ee64446514651d65e5676568396b6a6cdb6ce86d746dbc6f20706b70d8722c73a97a837aca7c897cfb7dd87e3d; 0x7f047f577f8582db840c88f88a0a8a6d8a878baf8be18d088d608dc38dea8e8d9003935b953b959395f49918]);
  (1362524916391977600, [0x4e254e494eb2507651a05229523a527d534a546256b456ed5712573057605857589c58fd59925bff5f975fcd60dc6252; 0x626f629362a262bc62df643664cd64ec65c1668266ab68b36c386d826de16e346ee56feb70db711a71ed73bb75047529; 0x753075bc767d76ee77bb7cca7cdf7de07e2b7e617ee37f147f1d7f5a7f707fa9820c898b899689aa89c189c68a238ab9; 0x8bc08bfd8d668e528e638f2f8f919047907590e891dd948896d598df])
].
(** prob_emit.go:26938-26940 probEmit, state 157 *)
Definition emit_157 : list (Z * list Z) := [
  (34874232921302734, [0x53bb]);
  (122273068139649290, [0x51fa])
].
(** prob_emit.go:26941-26941 probEmit, state 158 *)
Definition emit_158 : list (Z * list Z) := [].
(** prob_emit.go:26942-26942 probEmit, state 159 *)
Definition emit_159 : list (Z * list Z) := [].
(** prob_emit.go:26943-26953 probEmit, state 160 *)
Definition emit_160 : list (Z * list Z) := [
  (101012839308595600, [0x4e5f]);
  (108461536846574180, [0x800c]);
  (134463212513449660, [0x7f627f77]);
  (426191133595058500, [0x4f866765]);
  (468572558272694600, [0x4fbf77408457]);
  (537887276328689200, [0x54ce])
].
(** prob_emit.go:26954-26954 probEmit, state 161 *)
Definition emit_161 : list (Z * list Z) := [].
(** prob_emit.go:26955-27658 probEmit, state 162 *)
Definition emit_162 : list (Z * list Z) := [
  (343524649189498200, [0x6700]);
  (346757139304889800, [0x6b63]);
  (349089606561530670, [0x4f9d]);
  (378113795043268650, [0x65e07121]);
  (385221726923249540, [0x5306]);
  (385306436797014700, [0x5c0f]);
  (386414245314330170, [0x4f18512a]);
  (414074644042192800, [0x77ed]);
  (416823958100212700, [0x9ed8]);
  (417289616683207800, [0x8f158f7b]);
  (431968389923164200, [0x9ed1]);
  (433055357146854600, [0x969096b1]);
  (435545112309027350, [0x7d307ec6]);
  (435685266501556200, [0x9759975c]);
  (437525375038645300, [0x6084]);
  (438386212492305300, [0x5927]);
  (443409425040938650, [0x6de1]);
  (448858243569345600, [0x4e0d]);
  (450633915728271500, [0x6025]);
  (456330598188939300, [0x9577957f]);
  (461459927627694300, [0x7b11]);
  (464219992435905600, [0x6e05]);
  (468216718476612100, [0x901a]);
  (470177565615449700, [0x51b0]);
  (477786578951221050, [0x6eda6efe]);
  (478644953320360200, [0x706b91cd]);
  (479076919434811900, [0x6f06]);
  (483728920998301200, [0x5341]);
  (489324786363105600, [0x767d]);
  (491752089998726200, [0x96ea]);
  (501825114726092600, [0x9ad8]);
  (504023005397970200, [0x72ed72f9]);
  (504580109902915700, [0x975e]);
  (507126216322743100, [0x832b]);
  (513027633466448600, [0x7a7a]);
  (515801308963608600, [0x5e725e79]);
  (519948633784266100, [0x70ed71b1]);
  (520930638402363600, [0x7070]);
  (521260127992048800, [0x5e73]);
  (522255161077365700, [0x8fdc9060958395ea]);
  (523260194662715800, [0x6c38]);
  (524616147641279000, [0x6696]);
  (527384490516120700, [0x539a]);
  (528797941609611200, [0x60e861586d016f54]);
  (530593321971270700, [0x5bc6]);
  (532421526455015700, [0x8d6b]);
  (533534710491900100, [0x51b7]);
  (533908542702960800, [0x4e714e82]);
  (539690499791843400, [0x6c146c23]);
  (540487316756761200, [0x6c886c89]);
  (540888118896515000, [0x5b9e5be6]);
  (542916586013665550, [0x6591]);
  (545406341175838300, [0x660e]);
  (545827394429472600, [0x660f]);
  (546250228040424700, [0x580276f4]);
  (546674857128569900, [0x597d]);
  (549698845647541700, [0x98db98de]);
  (550138406794845500, [0x8840]);
  (551023368322543750, [0x82b1]);
  (551916231396973900, [0x544660a0]);
  (552365670355757800, [0x7d057ea2]);
  (552817138391210400, [0x5149591a]);
  (554643673188939800, [0x9f0e]);
  (558399983346504700, [0x82cd84bc]);
  (559845791664027600, [0x9bae9c9c]);
  (561806638802865250, [0x8d64]);
  (564821942619934000, [0x61626e7f6fd5]);
  (566883871340207600, [0x75f4]);
  (567406065738322800, [0x7a00]);
  (568458707037021500, [0x707c]);
  (571139832782087200, [0x5dcd]);
  (573894827958910300, [0x7b147b46]);
  (574455053513777300, [0x6b7b]);
  (575018435285602900, [0x5ffd]);
  (576154811150634300, [0x8584]);
  (576727878621532850, [0x5b89]);
  (577304249093207800, [0x4e4c70cf]);
  (582038861152927700, [0x91d1]);
  (583873775019747300, [0x6d3b7d507ed3]);
  (585742988320962600, [0x943594c1]);
  (586373905240289100, [0x78a7]);
  (587647807818032050, [0x8fde9023]);
  (588290896851061100, [0x6ee16eff]);
  (590245356458358100, [0x6ed4]);
  (592912181166574300, [0x51748208]);
  (597050702782859700, [0x570657136cf0]);
  (598469166282055300, [0x64166447]);
  (599186015229916600, [0x607660e1]);
  (600635315960173250, [0x8edf8f6f]);
  (601367919969380500, [0x6cb9]);
  (602105930699142800, [0x5feb614c8001986b98a4]);
  (604353216284348700, [0x606d]);
  (605113676222870600, [0x6f2b]);
  (606652168106818600, [0x96c4]);
  (607430382151024100, [0x5e7d7626]);
  (609005217847838000, [0x7279]);
  (609802034812755600, [0x4e4551b2885d]);
  (611414973005744000, [0x6574]);
  (612231304069660100, [0x8427856d]);
  (613884234264781200, [0x7dbf7ef5]);
  (615564946096419250, [0x4eae]);
  (616416015063210100, [0x7d2f]);
  (617274389432349300, [0x8ff7]);
  (618140195706660740, [0x5b64]);
  (619013563703536200, [0x751a]);
  (621680388411752400, [0x6d516e3e]);
  (622585371963744100, [0x5be5]);
  (624420285830563800, [0x80d69752]);
  (625350525096795100, [0x715e]);
  (626289499131779100, [0x51db51dc]);
  (627237373527233450, [0x718a]);
  (630136127214558700, [0x9eef]);
  (631121356858859800, [0x6a21]);
  (632116389944176600, [0x84718525]);
  (633121423529526800, [0x6f20]);
  (634136660675928500, [0x745f888588ca]);
  (635162310692647500, [0x5f2f5f4e]);
  (636198589396202150, [0x751c]);
  (637245719382931700, [0x559c8f9b]);
  (638303930315985400, [0x96349670]);
  (640454550838081700, [0x4e24516951c46dd2]);
  (641547457891300800, [0x59549178]);
  (643769771569771800, [0x4e2556b46bdb]);
  (644899727095165100, [0x7c0c8fe4]);
  (646042596677527400, [0x7b49]);
  (647198678917634900, [0x7cca8dcc]);
  (648368282893954100, [0x61d261f66d536fc39edd]);
  (649551728658654400, [0x5982]);
  (650749347763325900, [0x98399893]);
  (651961483816560400, [0x6cea6dda]);
  (653188493075741850, [0x4f8667656b6a]);
  (654430745075597550, [0x52c35bc295f99b27]);
  (655688623296283600, [0x786c]);
  (656962525874026600, [0x6717]);
  (658252866357617350, [0x9999]);
  (659560074514352700, [0x9f4a9f50]);
  (662226899222568800, [0x5e74602f]);
  (663587464428146700, [0x5fae8e518ea1]);
  (664966796641380200, [0x6c34]);
  (666365420838854200, [0x666e672870c2721b7da07eff7fe0]);
  (667783884338049800, [0x8e09]);
  (669222758083259800, [0x523a54ed968f96a8]);
  (670682638025375100, [0x60f666f27470]);
  (672164146603889200, [0x74809ebb]);
  (673667934340343160, [0x53ef621862306c6a8499932f9519]);
  (675194681553422000, [0x6587]);
  (676745100207018600, [0x67267126]);
  (678319935903832500, [0x768e]);
  (679919970038476600, [0x6e296eab7e377f15900f]);
  (681546022125654600, [0x75db]);
  (683198952320775700, [0x50bb]);
  (684879664152413800, [0x77ee8721881f8fdf90729f13]);
  (686589107488343850, [0x70af]);
  (688328281759530700, [0x600f76ce903696fe9727]);
  (690098239469470800, [0x6f7a90c19b31]);
  (693735003886558300, [0x563b6e9c7dcb7e7d7eef7f2490599065]);
  (695604217187773600, [0x96f698af98d2]);
  (697509036684843050, [0x53c253c3]);
  (699450845270553150, [0x5c425c646d456dfa9ec39ec4]);
  (701431108000171100, [0x5782604d7d1b7eb7]);
  (703451378731923100, [0x4ed3500954d756295a46898f89c4]);
  (705513307452196700, [0x511276c8]);
  (707618648371979900, [0x99ed9a87]);
  (709769268894076260, [0x4e0a5ce55d2271a0]);
  (711967159565953800, [0x4e506a0296cd]);
  (714214445151159600, [0x50f5547c5fd9]);
  (716513396973629500, [0x5ba273297834]);
  (718866446714648900, [0x4f4e66666e5b]);
  (721276201872555000, [0x51c9542b67af6dbc6ef498c498d8]);
  (723745463131592100, [0x65906c796d367a337a697d557edd826f]);
  (726277243930021100, [0x4e89625164b2722d]);
  (728874792570347200, [0x4eb2708e89aa9ee7]);
  (731541617278563300, [0x7cbe8212]);
  (734281514697374800, [0x533a534055987aef7b037be47f758a258bb79a82]);
  (737098602394044400, [0x5b8c7b807c2192e59503]);
  (739997356081369600, [0x5bbd5bec5d99624e83bd]);
  (742982652396337700, [0x535375af760b7c0791ca91cb]);
  (746059818263013150, [0x51925a075b0c5f7b5fb96643980e9880]);
  (749234688094471100, [0x60b6795e8e0f95f7]);
  (752513670376770300, [0x6d936f47701f78e899a5]);
  (755903825544338400, [0x51c055b756745d6f62416de872b973367a847d6e]);
  (759412957525465300, [0x4e5660f46bb7]);
  (763049721942552850, [0x4e60534a54cd59e37fd28a8d8ba497ff]);
  (766823754740837500, [0x561f6012771f81ea852b9189]);
  (770745826056165700, [0x4ed4602a6c576f847f9e]);
  (774828025508191200, [0x4e1d678968ee79c07d728ae78c108fe2]);
  (779083986950070800, [0x50475520562e60b2810f81df878d893489648fc5]);
  (783529163207154200, [0x53e054c065b9758a7691769a76b176ba84dd85cd]);
  (788181164770643400, [0x50995907677e6d696d9f6f2370c87599865a865b9806987a]);
  (793060181187586600, [0x548c58a87fb8]);
  (798189510626341700, [0x665566886b226b617d277dca]);
  (803596232753369200, [0x504f54c8560060d86d0b7192719978d583678cca8d3c]);
  (809312074137364000, [0x520752c962767c897d227f8e]);
  (815374536319007600, [0x52e45a095ae9633a6ed1822c]);
  (821828388432764700, [0x503e50be540454d1555e646965f666427c98873f903c9aa8]);
  (828727675581459900, [0x5471670d6eb67de97f137fe981088109]);
  (836138472796832100, [0x5eb8626d647875c57cbc81ed83388a738be6]);
  (844142743564185800, [0x4fca52375ae35de55f906021607961e88e3d]);
  (852843881263148700, [0x5225522b5766612362d666976df16f026f7874e68d858f5f8f70]);
  (862374899243581300, [0x5a49609265e56602758f83358afe8bfa972d9744]);
  (872910950809363800, [0x4ece4f53522953e454fc560859445f9e602662bd7dad7ef4970f9ad4]);
  (884689254375002100, [0x52fe548b571f592a5955606961f5662d6dc5]);
  (898042393637454400, [0x5065659967d46cf16d4180c08106813984ca8fa3931a94ee]);
  (913457461620180300, [0x4e95514751dd51f6522e574e59a560fa6311656666a26f4b703275457d2b84ec8df3908b]);
  (931689617299575800, [0x55eb56c15996606c688680a582b88815]);
  (954003972430996700, [0x51d154e956e2571859475e3867346a386e4a707f70df71157159716571e677407e397f258457985b98a0]);
  (982772179676174900, [0x5f0061a86b8b6b986ce06df76f6e72e0762a765f76ea7e8f7f2080c680e1817b81a981bd83619165958b]);
  (1023318690486991200, [0x4fcf5df462c9632464e0652f6674672c6742679d68296bd2788e7d687ed2864e918796dc98029876]);
  (1092633408542985800, [0x505c5167518552fb530054c6560e5c115c8c5cb868d27405746f75d2766279bf79c37c978083808582b39c579cde])
].
(** prob_emit.go:27659-27659 probEmit, state 163 *)
Definition emit_163 : list (Z * list Z) := [].
(** prob_emit.go:27660-29010 probEmit, state 200 *)
Definition emit_200 : list (Z * list Z) := [
  (270548880374756800, [0x5927]);
  (328971326336403700, [0x8981]);
  (353342023772428070, [0x540c]);
  (378443341967635140, [0x672c]);
  (379504436781238700, [0x822c]);
  (404836772441002200, [0x5b9a]);
  (410618014316948000, [0x663e986f]);
  (413499685927191500, [0x91cd]);
  (421830013848550800, [0x597d]);
  (422921844991929100, [0x5747]);
  (437859635090903100, [0x5e38]);
  (453259031958074600, [0x70c8]);
  (458359499979533700, [0x9ad8]);
  (472542397376428400, [0x7e8c7eed]);
  (473806636717946000, [0x529f]);
  (473971418419526700, [0x6613]);
  (474061413925825800, [0x540d]);
  (475710592690713700, [0x6548]);
  (481197862546622900, [0x5bcc]);
  (487174744919876800, [0x4f539ad4]);
  (492227564982501600, [0x8db3]);
  (494135153028851400, [0x786e78ba]);
  (500496116040620400, [0x695a]);
  (501005621356036800, [0x52a852d5]);
  (501893639031722750, [0x6cdb]);
  (503754250874050500, [0x5229]);
  (504199505606820100, [0x5b9e5be6]);
  (509339511392139500, [0x7531]);
  (511084305250962600, [0x8861]);
  (511803968154166500, [0x535555ae]);
  (511825857176909100, [0x6b8a]);
  (512198705508829500, [0x81f4]);
  (512926462607698850, [0x5f537576]);
  (514713021961239700, [0x660e]);
  (516257103501530100, [0x674296dc]);
  (516922930780534350, [0x89c089c2]);
  (517269071659193300, [0x901a]);
  (518595443634697500, [0x7406]);
  (519607812492893500, [0x9759975c]);
  (520821968581998100, [0x5fc3]);
  (521398477505189800, [0x677e]);
  (521615528114940700, [0x8fbe9054]);
  (527073231634864600, [0x51fa]);
  (530946360314062600, [0x5eb7]);
  (541120843515573000, [0x65b0]);
  (541473577567369900, [0x51748208]);
  (541945833462787300, [0x6025]);
  (543016634890034500, [0x4fbf]);
  (543797185235454700, [0x8fdc9060]);
  (544492787616832900, [0x5f205f35]);
  (551957293661593000, [0x5c0f]);
  (552449017320796600, [0x8cb48d35]);
  (553042295263999500, [0x719f]);
  (554139198401056900, [0x898b89c1]);
  (555113177553137100, [0x8fdb9032]);
  (555858438455094200, [0x5bc6]);
  (556028593337053100, [0x5207]);
  (557676982309222000, [0x5f315feb]);
  (558023843565762400, [0x5b89]);
  (559811796541134700, [0x52b252c1]);
  (559882567952439600, [0x4e3d9e97]);
  (560024261210294050, [0x7528]);
  (560095183199082400, [0x548c]);
  (561632300147824200, [0x4f4e]);
  (562864646298267700, [0x8f158f7b]);
  (563156830582104200, [0x7f8e]);
  (564371196931232200, [0x4e714e82]);
  (566201997179918400, [0x884c]);
  (568683514091890800, [0x4eba]);
  (568799545820244500, [0x529b]);
  (568876975169834950, [0x9650]);
  (569498577792935600, [0x614e]);
  (572464980784275700, [0x4f3c]);
  (574985439410276500, [0x7136]);
  (575150251973335400, [0x4e3b]);
  (575439329193019860, [0x539a6574]);
  (575480694240145400, [0x4eae]);
  (575687776525786100, [0x5efa]);
  (578206801408642000, [0x90029069]);
  (579404420513313500, [0x7a337a69]);
  (580660120061029200, [0x60c5]);
  (582462762850521500, [0x7d1a7ea7]);
  (583309281605726800, [0x932f9519]);
  (584842224157847600, [0x6c146c23]);
  (586676296659805100, [0x7279]);
  (588262150790470000, [0x826f]);
  (589396914740223700, [0x59cb]);
  (590112737410240750, [0x7d307ec6]);
  (591559940671094200, [0x70ed71b1]);
  (592144737659336500, [0x5916]);
  (592487455253048200, [0x5f027570]);
  (594368698852120300, [0x76db]);
  (597053083890245600, [0x95ca9614]);
  (599337710775362600, [0x8001]);
  (600075721505124900, [0x5947]);
  (601460932785940000, [0x5e73]);
  (602485476663030900, [0x79c0]);
  (604345486522152300, [0x6d3b]);
  (604954737922068100, [0x6ee16eff]);
  (606918335373753950, [0x4e45]);
  (607714699081908500, [0x5bb3]);
  (607886176688945600, [0x523b]);
  (608230016569248900, [0x6d016f54]);
  (608402380875065400, [0x52df]);
  (608805723398255600, [0x9577957f]);
  (609967176640324900, [0x6162]);
  (611438224055896800, [0x72c2]);
  (611854025070763200, [0x540e5ea65f8c]);
  (617674963679355600, [0x51c06de8]);
  (618498535011578450, [0x5225522b]);
  (620037026895526500, [0x5f375f3a]);
  (620620118926605800, [0x798f]);
  (622390076636545900, [0x7b49]);
  (622854114592196100, [0x88d5]);
  (624057337664478150, [0x7e41]);
  (625958277458215100, [0x79d8]);
  (626646038078425400, [0x611f8edf8f6f]);
  (627060976433106600, [0x591f5920]);
  (627269093053489100, [0x671b]);
  (627616919491121550, [0x4e506a02]);
  (629161894042041000, [0x5999]);
  (630874998035059300, [0x6cd5]);
  (631307899144017900, [0x534e83ef]);
  (634541097741376400, [0x71e5]);
  (635516715235912950, [0x96c6]);
  (635743215898998100, [0x5b9c]);
  (635970230752452000, [0x65f1]);
  (636959960948071500, [0x6717]);
  (638502011550881000, [0x56fd570b]);
  (640384420075444500, [0x6015]);
  (642545368508730100, [0x75db]);
  (642626307404285950, [0x4fd7]);
  (642707311863960400, [0x9ed8]);
  (643684518337339600, [0x7d147eaf]);
  (643848318537763500, [0x5f97]);
  (644341335148549400, [0x92b39510]);
  (646759126953570500, [0x6697]);
  (647521519464636500, [0x6de1]);
  (647776947445146200, [0x5065]);
  (648977647976518500, [0x610f]);
  (650630578171639600, [0x95f996be96e39b27]);
  (650718335965775500, [0x7d507ed3]);
  (650806170841866000, [0x4e2556b4]);
  (651334806434180900, [0x6670]);
  (651423184698881650, [0x5cfb]);
  (652847963921071800, [0x4e00]);
  (653839409626789600, [0x6b63]);
  (656222657163599400, [0x5957]);
  (656687558047423900, [0x56fa]);
  (656780798147419000, [0x7206]);
  (658379327719477000, [0x82e6]);
  (658949671470863900, [0x52b352de]);
  (659140511223440000, [0x9760]);
  (660486685398529800, [0x8d8a]);
  (660777524188125600, [0x8aa08bda]);
  (660874658727088700, [0x786c]);
  (660971887708982650, [0x611b7231]);
  (661851228988221200, [0x773c]);
  (662047692705637700, [0x96c5]);
  (662244543162904900, [0x9177]);
  (663334202285326200, [0x8272]);
  (663933604679347300, [0x9bae9c9c]);
  (664335211644836300, [0x8ae78c10]);
  (666162673669184450, [0x7591]);
  (668757526055954600, [0x51b7]);
  (670347384662734500, [0x7cca]);
  (674826560483008200, [0x8c6b]);
  (675050274222843800, [0x672780e7]);
  (675386786037875100, [0x5584]);
  (677659611145630800, [0x4e0b]);
  (679632977561325800, [0x607c60f1]);
  (680930930886261000, [0x52fb5300]);
  (681168743126757700, [0x9192]);
  (681407122262285400, [0x8da3]);
  (681646071002023600, [0x51c96dbc]);
  (681765759825408150, [0x58ee58ef]);
  (681885592074619050, [0x7a84]);
  (682125688228372900, [0x8e81]);
  (683213312242786700, [0x6c886c89]);
  (683456621365250900, [0x6016]);
  (683700523925186800, [0x731b]);
  (684929040604644500, [0x90c19b31]);
  (685300558059830860, [0x5dee]);
  (685673460915817500, [0x8584]);
  (687179135533728300, [0x56f079f07a31]);
  (687813253067573000, [0x6298]);
  (688579540342130000, [0x559c5de7]);
  (688964897273728900, [0x7d277dca]);
  (689351744951521000, [0x5fae]);
  (689869880825720700, [0x66a27545]);
  (689999835359929300, [0x89ba89c9]);
  (691837157385591300, [0x5f69]);
  (692102409530504300, [0x767d]);
  (692235299915509700, [0x5b88]);
  (692501611657458050, [0x607660e1]);
  (693304828827184500, [0x52a3]);
  (694385920437606100, [0x5766]);
  (694794362121828500, [0x4f1f504980838085]);
  (695616284557141700, [0x7df47ec3]);
  (696168010094617300, [0x770b]);
  (696722796538389000, [0x5168]);
  (697280678041092900, [0x58576d82]);
  (698123379657280900, [0x6df1]);
  (698831096694689400, [0x9f4a9f50]);
  (699115591907912600, [0x5c2c]);
  (699830391234441300, [0x60ca9a5a]);
  (700839772551363200, [0x7de97f13]);
  (703185921219262950, [0x608560a6]);
  (703334399346020960, [0x8a1d8bb6]);
  (703632018613325500, [0x60b695f7]);
  (704831433291907400, [0x670d]);
  (706504476117828400, [0x6ed1]);
  (706657968089636800, [0x50995907]);
  (707428981932233500, [0x6562]);
  (708362114675121900, [0x668266ab]);
  (708518486872740200, [0x6e7f6fd5]);
  (708989075976481500, [0x61be]);
  (709461890096076100, [0x67d4]);
  (710414278247201650, [0x70e67169]);
  (711860086564724600, [0x714c]);
  (713986086507409600, [0x601d]);
  (714151512517012200, [0x53d7]);
  (714982772498948700, [0x4fc3]);
  (715149856915430500, [0x591a]);
  (715989492410721200, [0x6377]);
  (716666313945335000, [0x77408457]);
  (717347747587308100, [0x52c7]);
  (717518834027671000, [0x4fe1]);
  (717861887537349900, [0x67346a38]);
  (718724705659683800, [0x5e8f]);
  (718898166240904600, [0x751f]);
  (721003507160687800, [0x8c61]);
  (721893984994983700, [0x57238056]);
  (722252408317765300, [0x5bf95c0d612461a4]);
  (722792463635765350, [0x966996aa]);
  (724430352844169300, [0x614c]);
  (725352018354661700, [0x5fd9]);
  (726282257620893000, [0x8b398c28]);
  (728550785904001400, [0x4f2450b76c83]);
  (729126051152946350, [0x6168]);
  (729511408084545400, [0x8fd1]);
  (729898255762337500, [0x524d932294b1]);
  (730481347793416700, [0x771f]);
  (731657831951375400, [0x865a865b]);
  (731855265381747200, [0x76f4]);
  (732251305503356900, [0x50b2]);
  (732449915300519800, [0x723d]);
  (732648920341320800, [0x853d]);
  (732848322202007200, [0x6c9b]);
  (733448924608028400, [0x69ae8363]);
  (734458014906224700, [0x59a5]);
  (734864519531041600, [0x6f2b]);
  (735682520002234700, [0x82738277]);
  (735888069920444300, [0x898f89c4]);
  (736300441638830500, [0x65e76da66f64820a]);
  (736714520905433600, [0x6cfc6f51]);
  (736922205299917500, [0x602a]);
  (737130321920300000, [0x6050]);
  (738811033751938150, [0x5e78758f]);
  (740090368897929100, [0x7b118feb]);
  (740305191751758100, [0x4f595c1165f666429918]);
  (740520477087868200, [0x656c9053]);
  (740736226901870200, [0x817b81a9]);
  (740952443202319800, [0x5047]);
  (742040593221073200, [0x66b46761689d]);
  (742919719762190300, [0x654f]);
  (743140714327270600, [0x8fd0904b]);
  (743362198360225900, [0x4e8b76ca]);
  (744701504093869600, [0x67816975]);
  (744926476067271200, [0x65636da86f32]);
  (746974329201625300, [0x5bb9]);
  (747898123300118900, [0x706b]);
  (748363240417691960, [0x5bde]);
  (748830530987631300, [0x6da96f808fc7904e]);
  (749300015418052000, [0x964b]);
  (750008400906892500, [0x70c2721b]);
  (750483461182752300, [0x6709]);
  (750960789058018100, [0x9762]);
  (752406597375541100, [0x60e861589806987a]);
  (755863731782049900, [0x5026]);
  (756115304241774700, [0x5230]);
  (759966871449836200, [0x667a]);
  (760228994797823600, [0x76ae]);
  (760491807038450600, [0x4e4f]);
  (761019512748534900, [0x5ae9]);
  (761816329713452600, [0x788c]);
  (762083352569040500, [0x5b815be7]);
  (762351090346112150, [0x7f3a]);
  (762888726049750150, [0x602f]);
  (763429267906440940, [0x7d717edf]);
  (764245598970357100, [0x72ec7368]);
  (764519196952244500, [0x7387]);
  (765898529165478200, [0x60e761fc]);
  (766176693461665800, [0x7cd9]);
  (766735354132529800, [0x624b]);
  (767297153362952140, [0x5403]);
  (768430309963907100, [0x80fd]);
  (770154490607357700, [0x5bd2]);
  (770444766573153800, [0x616e8651]);
  (771320684582142050, [0x6d41]);
  (772797816314173200, [0x53e3]);
  (773095879127987000, [0x52e460d180d697099ef4]);
  (773995435418844800, [0x86ee883b]);
  (775512915220768400, [0x65b9]);
  (776126414077519900, [0x5f1b6627]);
  (777053777756052900, [0x4e2755aa]);
  (777989822032009200, [0x8fa3]);
  (778303794032476050, [0x79fd7a627d20]);
  (778618754922765600, [0x52195247]);
  (779251668427930400, [0x7cb9]);
  (780208613529545500, [0x5510]);
  (780851702562574500, [0x958095e8]);
  (781824157551774000, [0x5ec965ad65b7]);
  (782806162169871560, [0x9178]);
  (783466230573006800, [0x6d3e]);
  (783797905835606100, [0x76ee]);
  (784130684844873600, [0x632464e0]);
  (784799583659953300, [0x5a9a]);
  (786150955576625500, [0x542c6127807d]);
  (786833552083665600, [0x6602]);
  (787176605593344500, [0x7d937ecf]);
  (788909751228508400, [0x5a6a5ced]);
  (789611508494373100, [0x50fb6a2a6a6b7cd5]);
  (789964242546170000, [0x4ef750f991cf]);
  (790318225216682400, [0x7a4e9896]);
  (791029971993568700, [0x7626]);
  (791746820941430000, [0x6065803b]);
  (792468845738778700, [0x70759748]);
  (792831822543836600, [0x788e]);
  (793561752791997700, [0x5f0f]);
  (793928725680894000, [0x60e0]);
  (794297050222523600, [0x6012]);
  (795037794350309750, [0x6170]);
  (795410234259408000, [0x7d2f88c1]);
  (796159301432323800, [0x795e7a00]);
  (796535949711871450, [0x77e5]);
  (797293529092717300, [0x5e7f5ee360b26d4a6fc1]);
  (798056891578224400, [0x8106832b]);
  (799212973818331900, [0x5c1a]);
  (799601323820971700, [0x843d8a718bdd]);
  (800775505608640000, [0x75bc]);
  (801963638397315400, [0x66966b66]);
  (802362840524269000, [0x5df2631a646f]);
  (804383111256021000, [0x6bc5]);
  (805202787976438800, [0x65706578673d8d77]);
  (805615159694825000, [0x594b596e8033]);
  (806862577117342600, [0x4f88]);
  (808125751807932600, [0x8b498bc1]);
  (808550380896077800, [0x632f]);
  (810701001418174100, [0x5fcd]);
  (811136731955069700, [0x655e]);
  (811574369415049500, [0x4e2d]);
  (812013930562353400, [0x54d1555e6d3c7aaa]);
  (812455432383265100, [0x5a496c8c]);
  (812898892090051600, [0x6f88759a]);
  (813344327124989700, [0x804a]);
  (813791755164481900, [0x75d27662]);
  (814241194123265700, [0x5982]);
  (816059426031584900, [0x5206]);
  (818379715739551200, [0x538953b265fa97cc97e7]);
  (818850304843292400, [0x6f208df78e7a]);
  (819323118962887000, [0x60b4]);
  (819798179238746800, [0x7a468c6a]);
  (820755124340362000, [0x8822]);
  (821237052983956800, [0x6101]);
  (821721315431535600, [0x5de8]);
  (822207934396652900, [0x8abf8c03]);
  (822696932926072000, [0x76ea8361]);
  (823188334406315000, [0x6e5b]);
  (823682162570373100, [0x900a905c]);
  (824178441504586200, [0x6068633a]);
  (825178449838044500, [0x6bd2]);
  (825682229241040100, [0x81658ce48d31]);
  (826188559436694800, [0x746983b9871c]);
  (826697466387442000, [0x6d127051]);
  (827723116404161000, [0x58fd5bff6e05]);
  (828239913420005200, [0x8d6b]);
  (828759395107715600, [0x5eb88b2c8c2c]);
  (829281589505830800, [0x733e]);
  (829806525094445000, [0x51e1607361c7]);
  (830334230804529500, [0x51d15bc26e4a]);
  (830864736027498700, [0x76c8]);
  (832473349802661200, [0x5c965d8784c4]);
  (833015356549595200, [0x920d949d959295f2]);
  (833560317026351600, [0x99a8]);
  (834659229183911000, [0x7a1a]);
  (835213247221472700, [0x601c608d6190]);
  (835770351726418200, [0x8d85]);
  (836330577281285200, [0x60dc661f8302]);
  (836893959053110800, [0x5951810f81df]);
  (837460532806678500, [0x7a3d89e3]);
  (838030334918142300, [0x60da]);
  (838603402389040800, [0x793c79ae]);
  (839179772860715700, [0x5c3d76e1]);
  (839759484629148500, [0x7a777aae914d9761]);
  (840342576660227700, [0x52c3904d]);
  (842112534370167900, [0x626d68376a23]);
  (843310153474839400, [0x62d9]);
  (843914384920435600, [0x5411]);
  (845749298787255200, [0x7357751c]);
  (846368495812047400, [0x4fca677f]);
  (846991550787111000, [0x74107463]);
  (847618512088470600, [0x51415e84838a]);
  (848249429007797000, [0x4f2a507d]);
  (848884351775663000, [0x54735b665b78]);
  (850166420618569000, [0x5934982d]);
  (850813672069130800, [0x4f4f602077ee]);
  (851465140171250200, [0x90839119]);
  (852780948629001200, [0x8a6b8be7]);
  (853445402900868200, [0x6b49]);
  (854787704934082300, [0x7b97]);
  (855465673632620100, [0x75658a738be6]);
  (856148270139660100, [0x8a958bde]);
  (856835558068436300, [0x53717f9e]);
  (857527602352893600, [0x8a508bc89ae6]);
  (858224469284503000, [0x6d4e6fdf]);
  (858926226550367600, [0x4e49516c7fa98000]);
  (859632943272676900, [0x8f9b]);
  (860344690049563200, [0x78e879c18fc89081]);
  (861061538997424600, [0x6e296eab8f498f6c]);
  (861783563794773100, [0x4fed5109616799529976]);
  (862510839727681100, [0x829c856a99ed9a87]);
  (864724952315402500, [0x813881c9]);
  (865474019488318400, [0x535a8aaa8bf4]);
  (866228740051856700, [0x5eb66ede6eef]);
  (866989199990378600, [0x57777d047ea6900f]);
  (868527691874326500, [0x4f73]);
  (869305905918532000, [0x77ed]);
  (871677558580263500, [0x7a20]);
  (872480775749990000, [0x4fcf8086]);
  (873290496773252000, [0x54c06d456dfa]);
  (874106827837168000, [0x72b77377]);
  (874929877750819600, [0x60f6]);
  (875759758032289000, [0x626c63da6b7b8ca78d2b]);
  (876596582999340700, [0x524a57f76267]);
  (877440469863927100, [0x65f766e0]);
  (878291538830718100, [0x62d4]);
  (879149913199857200, [0x79cd7a2e]);
  (880015719474168600, [0x60277dbf7ef5]);
  (880889087471044000, [0x5351658772e0785578a9]);
  (881770150439259700, [0x5b5d90599065]);
  (882659045180984200, [0x5e725e795f7b5fb97d22812b8131]);
  (883555912179260300, [0x73d174cf]);
  (884460895731252000, [0x547d]);
  (885374144087579400, [0x51c661156e96]);
  (886295809598071700, [0x4e4e60d88eab]);
  (888165022899287000, [0x61488146899689c6]);
  (889112897294741300, [0x7620]);
  (890069842396356500, [0x4ea272de7370]);
  (891036033487530200, [0x4fd063018b66]);
  (892011650982066600, [0x513f5152675f8cab8d2f9b6f9c81]);
  (892996880626367700, [0x83f2901f]);
  (893991913711684600, [0x5965596768a7707c]);
  (894996947297034700, [0x600560b5]);
  (897037834460155500, [0x62d7]);
  (898074113163710100, [0x9038]);
  (899121243150439600, [0x9698]);
  (900179454083493300, [0x50cf5984]);
  (901248982995168100, [0x68ee71ac864e]);
  (902330074605589700, [0x56ca61c8]);
  (903422981658808800, [0x6b8b6b98]);
  (904527965277467200, [0x8f9f95e2]);
  (905645295337279800, [0x653e9813987f]);
  (906775250862673000, [0x606d]);
  (909074202685143000, [0x503c]);
  (910243806661462000, [0x61c283bd]);
  (911427252426162400, [0x61d161e38150]);
  (912624871530834000, [0x4f174f7f60eb618a773e7965]);
  (913837007584068300, [0x51ff90aa947f]);
  (915064016843249700, [0x5b586248]);
  (916306268843105400, [0x5c169686]);
  (918838049641534500, [0x7a7a853c85f9]);
  (920128390125125300, [0x6fc0]);
  (921435598281860600, [0x9999]);
  (922760120956862700, [0x71269b44]);
  (924102422990076800, [0x570657136666]);
  (925462988195654600, [0x7b2893d895359f3b]);
  (926842320408888100, [0x61e66d1e6d6e8b108c27]);
  (928240944606362100, [0x556c55c75df477669a579a8c]);
  (929659408105557700, [0x59317dbd7ef0]);
  (931098281850767700, [0x5fb7]);
  (932558161792883000, [0x5e9f5ee276f8]);
  (934039670371397000, [0x5948]);
  (935543458107851200, [0x5e16655d763e766e]);
  (937070205320930000, [0x5316621862307df27f08]);
  (938620623974526500, [0x5ba05bf5649e88f89ee0]);
  (940195459671340400, [0x5fd860ed615a79bb801081ca91ce96e2975297f597fb]);
  (941795493805984500, [0x6c93767b80bf816b8b5c8c31]);
  (943421545893162500, [0x606f6e9c]);
  (945074476088283600, [0x88a49aa8]);
  (946755187919921700, [0x51bd53d860f08b8a]);
  (948464631255851700, [0x590d5fd1602861d261f676878b4e8c3298a898ce]);
  (950203805527038600, [0x566a627e636e64da73a981ed9811987d]);
  (951973763236978800, [0x59ff65e9]);
  (953775613787246500, [0x53d6751a]);
  (957479740955281500, [0x5c48624d6deb804c8077]);
  (959384560452351000, [0x56e2571860066134745e]);
  (963306631767679100, [0x54c9]);
  (967388831219704700, [0x51a56e349ebb9f6a9f8a]);
  (969494172139487800, [0x6078615f]);
  (971644792661584200, [0x51b35be55e7d6c7a701a72ed72f9817499129981]);
  (973842683333461800, [0x623e805e95fb]);
  (976089968918667600, [0x53f956065e7b610971c37d2b947d94bb]);
  (980741970482157000, [0x7d617edc80c38499]);
  (983151725640062900, [0x6df79b42]);
  (985620986899100000, [0x6b238cc08d3a]);
  (988152767697529000, [0x5149729f907d]);
  (990750316337855200, [0x5c556210]);
  (993417141046071200, [0x52c962ec70bc7149762a765f8349]);
  (996157038464882700, [0x4f5c6d6a8ff79187]);
  (998974126161552300, [0x56095bf85fe07da07eff82db]);
  (1001872879848877500, [0x566863116e3a84dd85cd9ed1]);
  (1004858176163845800, [0x5ba27fa485c99062]);
  (1007935342030521000, [0x5a065b0865976c386dd180af9b25]);
  (1011110211861979000, [0x53525468559d5ea76029609a618e65577d557edd7fe08ca18cbc8d228d258d349031]);
  (1014389194144278200, [0x4eb25012621a663566b17aef7e8f7f2089aa8a258bb7]);
  (1017779349311846300, [0x4f7b55e68cf48d56]);
  (1021288481292973300, [0x5b8f7a957e1f7f1b8c9e8d1e]);
  (1024925245710060800, [0x582a634f655b658272ef736a75f975fa811a8173]);
  (1028699278508345600, [0x5a1c]);
  (1032621349823673600, [0x580267406bba878d]);
  (1036703549275699200, [0x541d]);
  (1040959510717578800, [0x5a1b5a31]);
  (1045404686974662100, [0x572857a05f18795f7aed7e317eb5800d82b1]);
  (1050056688538151500, [0x585e6b8671667a98806980758e4a]);
  (1054935704955094500, [0x5bb666f267287a147fb681bb995e998b99b39a70]);
  (1060065034393849700, [0x4ec3506c50af52a963a166556688683c7f55820c8680875591c799b49a6f]);
  (1065471756520877200, [0x514b54085cb85d1b600061f76328672b8ecc8f688fa98faf946094c498c498d8]);
  (1071187597904872000, [0x51c454e85acc6dd27262931a94ee96c498e29965]);
  (1077250060086515600, [0x50f5521a525b59628ac78c08]);
  (1083703912200272700, [0x4efd51f962176227766f78a78e6c9042]);
  (1090603199348967900, [0x50a5513b5b506126619270bd71be]);
  (1098013996564340000, [0x57ae5de569c16dfc8cbb8d39]);
  (1106018267331693700, [0x4ec152365634573a58346001609f614b62d3635f640d65ce6b6a6c616cb16d8c6e678a188bb08c418cea8d288d678d70; 0x9640]);
  (1114719405030656700, [0x51b653055fe761826cca77aa7da37efb958995ed980798789a419a9c9dd99e379ec39ec4]);
  (1124250423011089000, [0x519755235f005fea77dc7a7f7c4d7c9780cc958b]);
  (1134786474576871700, [0x50bb5c51609261a8641e664366fc6f027acb8a00]);
  (1146564778142510100, [0x5e7c607b60fb6545676f6e2586508def]);
  (1159917917404962400, [0x4fda516751855f705ff1751879d1984c9898]);
  (1175332985387688300, [0x6c7073cd76017a767de37f18821282ac8a898b7d8f4d8f99]);
  (1193565141067083600, [0x4e5852dd611a6b3e6f9c703e70707b037be480dc8564]);
  (1215879496198504700, [0x538c53ad53d153e4541e56695ed35ffd60f96d0b6d516e3e6f8470b970d871b3725975f4767c770190069ede]);
  (1244647703443682700, [0x584c5ef6604d606c68d26ca66d0c6dea9732]);
  (1285194214254499200, [0x4e3052bf52e254f2598d60f362c96d176f13732577e97b807c217e377f158111816682cf86078b588bc68c50]);
  (1354508932310493700, [0x4e114f5e4f8651dd547554cd56a356c25a075b0c5c425c645f6267146765689768f16cde6cf06e436fd873ae744b7684; 0x77eb77ef789c78e37db87eb67fa17fa880c0813982cd83dc84bc85cf8b808bfb8dc38e8d919c97ff9802987698af98d2; 0x99c19a73])
].
(** prob_emit.go:29011-29166 probEmit, state 201 *)
Definition emit_201 : list (Z * list Z) := [
  (239846259505261860, [0x7136]);
  (246090362956978930, [0x5168]);
  (246888871268123700, [0x63a5]);
  (271450742625088800, [0x67816975]);
  (291732827225821150, [0x901f]);
  (295654262916282340, [0x5f0f]);
  (305712199648275850, [0x5f00958b]);
  (308210247945120040, [0x5206]);
  (310025385698297870, [0x904d]);
  (319820059474266440, [0x5b9e5be6]);
  (321453701406235800, [0x9762]);
  (336997194064146600, [0x786e78ba]);
  (351002128063320300, [0x65f66642]);
  (356012014786353300, [0x529b]);
  (358707430645394600, [0x683c]);
  (365582327279661620, [0x5207]);
  (378902216333993720, [0x7d307ec6]);
  (388380056966722660, [0x52a852d5]);
  (393875001419719340, [0x5e95]);
  (394140136351881360, [0x771f]);
  (420403114995980800, [0x5229]);
  (435664867502143900, [0x51b36c7a]);
  (470797601263357600, [0x4fbf]);
  (474187756430925800, [0x58f08072]);
  (487442422027124100, [0x538953b2]);
  (490642695135741400, [0x80c681bd]);
  (495156525510807550, [0x5bc6]);
  (495888236092514200, [0x5fc3]);
  (516925589984813700, [0x5fd9]);
  (522517108468504700, [0x610f]);
  (530321897821215000, [0x76ee]);
  (584741029582194100, [0x5065]);
  (587150784740100100, [0x5584]);
  (627089390943278300, [0x8dc38e8d]);
  (655253366742860200, [0x80838085]);
  (661466544853560800, [0x75657687]);
  (680470905142347250, [0x72c872fd]);
  (686050041105188900, [0x6168]);
  (692832300739065000, [0x91cf]);
  (694602258449005000, [0x88c1]);
  (698239022866092500, [0x82e6]);
  (700108236167307800, [0x5f31]);
  (714273287873610500, [0x65ad65b7]);
  (729507360331812400, [0x52c9]);
  (730781262909555400, [0x70c8]);
  (736045636258097500, [0x813881c9]);
  (752138672939361300, [0x52fb5300]);
  (753738707074005400, [0x614c]);
  (757017689356304400, [0x9a5f9aa4]);
  (763916976504999600, [0x5e78]);
  (765718827055267400, [0x4fc3]);
  (769422954223302300, [0x52c3]);
  (775249845035699900, [0x79f07a31]);
  (779332044487725400, [0x77408457]);
  (795094938908083700, [0x64166447]);
  (823053425129999800, [0x91cd]);
  (829722562579867000, [0x7d937ecf]);
  (836868458978081600, [0x7de97f13]);
  (844564563091694400, [0x60da731b]);
  (852902723985599600, [0x594b596e60f6]);
  (861999901806172300, [0x53e3]);
  (872008247661870500, [0x7406]);
  (883130811172892800, [0x8981]);
  (895647125468293500, [0x5a497387]);
  (902546412616988600, [0x8861]);
  (909957209832360900, [0x52e490599065]);
  (917961480599714500, [0x56fa767d]);
  (926662618298677500, [0x4e454fed510952b352de]);
  (946729687844892500, [0x660e66b4]);
  (958507991410531000, [0x5feb]);
  (971861130672983200, [0x524d612461a4]);
  (987276198655709000, [0x4e714e826a2a6a6b7d717edf]);
  (1005508354335104400, [0x7d2f810f81df8aa08bda914d]);
  (1027822709466525500, [0x5219524758ee58ef667a759a7a46]);
  (1056590916711703600, [0x5de76b6372c289c089c2]);
  (1097137427522520000, [0x595160b6793c79ae8edf8f6f95f7]);
  (1166452145578514500, [0x51745f375f3a67426c146c23795e82088eab8feb959295f296dc97cc97e7])
].
(** prob_emit.go:29167-29167 probEmit, state 202 *)
Definition emit_202 : list (Z * list Z) := [].
(** prob_emit.go:29168-29276 probEmit, state 203 *)
Definition emit_203 : list (Z * list Z) := [
  (143293313454840330, [0x5168]);
  (190062747659039190, [0x96be96e3]);
  (202538625237350200, [0x76fe]);
  (256634835570464800, [0x82e6]);
  (256979748452436600, [0x966996aa]);
  (266067525126062400, [0x751f]);
  (309771470496738340, [0x65578d25]);
  (322042618346275700, [0x6696]);
  (360575481161194800, [0x70e67169]);
  (382750850863710350, [0x60e761fc]);
  (396701006824813000, [0x614c]);
  (404373161710673900, [0x76ea8361]);
  (451373524635247500, [0x5bd2]);
  (470297724599100300, [0x6c146c23]);
  (481297814120533200, [0x8c8c]);
  (489031134460850200, [0x5b9a]);
  (541293154486733000, [0x54c0]);
  (551078733487108900, [0x7a777aae]);
  (565101667617973900, [0x4f2450b7]);
  (575279937048968100, [0x72c872fd]);
  (587955107612882500, [0x8d058d58]);
  (599396142730656900, [0x5fae]);
  (600922889943735800, [0x6bd2]);
  (605648178428790300, [0x5f97]);
  (615826447859784600, [0x607c60f1]);
  (619463212276872000, [0x90029069]);
  (623237245075156700, [0x9178]);
  (627159316390484900, [0x51c96dbc]);
  (631241515842510400, [0x608d]);
  (652005452320334800, [0x5cfb]);
  (654603000960660900, [0x98179887]);
  (657269825668877100, [0x5bc2]);
  (678241878767083950, [0x5a9a]);
  (696474034446479400, [0x4e4f]);
  (700556233898504900, [0x95ca9614]);
  (704812195340384500, [0x610e]);
  (718788389577900400, [0x74107463759a]);
  (729324441143683000, [0x60066134]);
  (735040282527677800, [0x81f4]);
  (769870951954499500, [0x5384602f8fdc9060]);
  (810417462765315800, [0x70ed71b1]);
  (839185670010494000, [0x611f788e8cbb8d3996c5]);
  (857417825689889500, [0x52a852d566fc]);
  (908500388066488500, [0x5c2c6d4a6fc1731b8f9b]);
  (949046898877305000, [0x59996e0575db832b8edf8f6f905399a8]);
  (1018361616933299500, [0x4e114e714e8260656076608560a660c560e16124617061a467346a386d3c6de175917aaa7cb9803b86ee883b919c])
].
(** prob_emit.go:29277-29991 probEmit, state 204 *)
Definition emit_204 : list (Z * list Z) := [
  (161184063238840450, [0x8981]);
  (297761416180145750, [0x6709]);
  (298292144859461850, [0x578b]);
  (324056673573668800, [0x7d1a7ea7]);
  (328070590332703200, [0x671f]);
  (331472515052453480, [0x4e2a500b]);
  (367261148164956450, [0x8ff0]);
  (370790724756294000, [0x4e00]);
  (397453591081688850, [0x6027]);
  (408288611681125200, [0x5f0f]);
  (410080774342860700, [0x5c0f]);
  (413898534284472100, [0x65f66642]);
  (417283136827035300, [0x5927]);
  (429995831125151600, [0x51748208]);
  (433101571376563700, [0x751f]);
  (433950694701800000, [0x7b49]);
  (435337771101772600, [0x7528]);
  (449804023493380440, [0x5b9a]);
  (450073409840626600, [0x5171]);
  (454445045095288600, [0x7136]);
  (458806081675552800, [0x6a21]);
  (483428190628481100, [0x8272]);
  (485219283285134100, [0x71df8425]);
  (485988940740333050, [0x4eba]);
  (489871284848623400, [0x8cea8d28]);
  (492900054510767500, [0x673a6a5f]);
  (497560504517636100, [0x7532]);
  (500197192101710300, [0x5e38]);
  (503101558878762200, [0x4e8b]);
  (506025355186832300, [0x52a852d5]);
  (512286092022644900, [0x52a152d9]);
  (513078888967864000, [0x9762]);
  (522320889406073200, [0x5728]);
  (527868804638096000, [0x984d989d]);
  (530849016681257900, [0x4ea77522]);
  (532504827931997850, [0x884c]);
  (532680729472515900, [0x63a5]);
  (536814291878306500, [0x65b0]);
  (539040728928046500, [0x6cd5]);
  (546134522996108300, [0x606f]);
  (547656622397143800, [0x5178]);
  (547963842300840700, [0x7c7b985e]);
  (556973146653544600, [0x7acb]);
  (558556890163407200, [0x98059879]);
  (559588417934590500, [0x79cd7a2e7d057ea2]);
  (559819098544382000, [0x56fd570b]);
  (560050312520219950, [0x4e0b]);
  (562155653440003200, [0x4e1a696d]);
  (563944609915080700, [0x5217]);
  (566504164633977100, [0x6d41]);
  (567372118005949300, [0x80fd]);
  (571698492450061100, [0x91cd]);
  (575542570780803950, [0x7a0b]);
  (576356686539174000, [0x7d937ecf]);
  (577452587918145900, [0x4ea4]);
  (578979335131224700, [0x5f62]);
  (584884578309394800, [0x7cfb]);
  (594208096585911250, [0x5c425c64]);
  (598534894610762800, [0x4f539ad4]);
  (599560544627481700, [0x68636a94]);
  (600944649768668900, [0x54115916]);
  (604130759975567200, [0x6548]);
  (605215761577973850, [0x6e05]);
  (607236032309725800, [0x672c]);
  (608731387276431600, [0x4efb]);
  (610249442994133200, [0x8f098f7d]);
  (612570630380255000, [0x899689c6]);
  (615751813143756400, [0x9014]);
  (616767050290158300, [0x4f866765]);
  (617792700306877100, [0x5934982d]);
  (621789025988060900, [0x521d]);
  (623520670989207000, [0x6b21]);
  (623739250311205050, [0x6df1]);
  (624177847505530450, [0x4e497fa9]);
  (625505300626400100, [0x4efd9645969b]);
  (628903135990585050, [0x7684]);
  (629133816600376500, [0x9020]);
  (629596780390250700, [0x9ec39ec4]);
  (630529188077763100, [0x5f79]);
  (632420497408411700, [0x5236681668f2]);
  (634105254465672900, [0x65e5]);
  (635572273440452200, [0x6d3e]);
  (644318203973310850, [0x63a7]);
  (644587383139882000, [0x7bc7]);
  (644857288836798500, [0x6c34]);
  (645127924996572800, [0x88c588dd]);
  (647043168218048400, [0x4f599918]);
  (649844471840815800, [0x5e73]);
  (652143423663285700, [0x983b9891]);
  (655393340402581100, [0x6d0b]);
  (656601814324088300, [0x591c]);
  (657211572310900100, [0x6210]);
  (660633368041934200, [0x50995907]);
  (661268290809800200, [0x5bdf]);
  (661907270619677200, [0x753596fb]);
  (662550359652706300, [0x7def7eac]);
  (663849079205387400, [0x5fc3767d]);
  (664176411739884300, [0x5c5e5c6c]);
  (666834375520355500, [0x7dda7ebf]);
  (668532209173797300, [0x62186230]);
  (669564920589382200, [0x4e45]);
  (669911541387030900, [0x5bfc5c0e]);
  (673445478031561800, [0x5bd2]);
  (674167502828910500, [0x84718525]);
  (674894778761818500, [0x8fb9908a]);
  (678992186182849000, [0x7387]);
  (679373139024515800, [0x7e547ec7]);
  (679755548668356200, [0x9ad8]);
  (681299980911103550, [0x9632]);
  (683662295487447100, [0x53d1767c]);
  (687727896051560000, [0x7d217eba]);
  (688143697066426350, [0x51fb64ca]);
  (690249037986209600, [0x72b672c0]);
  (691533852233994500, [0x73cd]);
  (691965818348446150, [0x5c465c4a]);
  (696844834765389400, [0x91cf]);
  (697758083121716600, [0x5957]);
  (698679748632209000, [0x624b]);
  (701021776053018800, [0x7da07eff]);
  (703906591486784700, [0x611b7231]);
  (704395590016203900, [0x754c]);
  (706375852745821800, [0x724c]);
  (708396123477573800, [0x524d]);
  (709421773494292650, [0x4f18512a]);
  (711505182184576900, [0x5ea68cab8d2f]);
  (715258974116483400, [0x503e50be]);
  (716911904311604400, [0x65b9]);
  (718592616143242600, [0x526f]);
  (719159189896810300, [0x529b]);
  (720878429950847600, [0x540e5f375f3a5f8c]);
  (724408208158950000, [0x9f619f84]);
  (728067152902179200, [0x5f69]);
  (729948086097928800, [0x84dd85cd]);
  (731221988675671800, [0x54c1]);
  (731865077708700800, [0x6b3e]);
  (733163797261381900, [0x533a53405b638fdc9060]);
  (733819537315997800, [0x59d3]);
  (734479605719133000, [0x76f8]);
  (735144059990999900, [0x5b97]);
  (735812958806079550, [0x4ee3898f89c4]);
  (737846927229791800, [0x7cb9]);
  (738534215158568050, [0x5143]);
  (739226259443025400, [0x666e8eca8f66]);
  (742760196087556300, [0x886588dc]);
  (743482220884905050, [0x5e45]);
  (744209496817813000, [0x53f76821865f]);
  (744942100827020300, [0x5b5463d0]);
  (745680111556782500, [0x4f4d]);
  (748687857080510350, [0x519c62df64ec8fb2]);
  (749454144355067250, [0x808980de]);
  (751788880754766350, [0x5f845f91]);
  (752579398705477700, [0x73af74b0]);
  (753376215670395400, [0x51675185706b]);
  (758295240089472600, [0x804c8077]);
  (759990195920849800, [0x8ecc8f68]);
  (762587744561175900, [0x77ff7926]);
  (763468807529391500, [0x4f2050b3]);
  (765254569269392100, [0x4f4e]);
  (767072801177711100, [0x7248]);
  (767994466688203600, [0x9577957f]);
  (768924705954434900, [0x71c376db]);
  (770811554384873200, [0x5408]);
  (771768499486488200, [0x65e071218154]);
  (772734690577661900, [0x7aef]);
  (777710841533568300, [0x771f]);
  (778736491550287200, [0x4e16]);
  (779772770253841900, [0x53cd]);
  (781878111173625100, [0x4e0a]);
  (782947640085299900, [0x6d178eab]);
  (785121638748940500, [0x878d]);
  (788473907952804900, [0x514958f08072]);
  (789616777535167100, [0x8b028c13]);
  (790772859775274700, [0x5bc6]);
  (791942463751593800, [0x8a00]);
  (794323528620965700, [0x4f605c04]);
  (796762673933381650, [0x9063]);
  (798004925933237350, [0x5e02]);
  (800536706731666400, [0x65e7820a]);
  (801827047215257000, [0x5bb6]);
  (803134255371992400, [0x611f82b1]);
  (807161645285786400, [0x7c4d]);
  (808540977499020000, [0x5b9d5bf691d1]);
  (809939601696494000, [0x610f]);
  (811358065195689600, [0x6416644779c1]);
  (812796938940899600, [0x529e8fa6]);
  (814256818883014900, [0x90099078]);
  (817242115197983000, [0x4e8c]);
  (818768862411061700, [0x547d6c0f9ed1]);
  (823494150896116400, [0x538b58d3]);
  (825120202983294400, [0x6c27]);
  (826773133178415300, [0x68376a23958995ed]);
  (828453845010053600, [0x5e9c6bdb6e908096901f]);
  (831902462617170500, [0x4f175316773e]);
  (833672420327110500, [0x4eb2625889aa]);
  (839178398045413200, [0x52a970e771d2]);
  (841083217542482800, [0x5efa]);
  (843025026128192900, [0x539f56f0780c]);
  (845005288857810800, [0x603b67427e3d92b9950896dc98029876]);
  (847025559589562800, [0x620d]);
  (849087488309836400, [0x52dd80dc]);
  (851192829229619700, [0x50196e296eab7d0b7eb98b808bfb9752]);
  (857788626008799300, [0x5fae]);
  (860087577831269300, [0x6276653e68f179d18840]);
  (862440627572288700, [0x6613]);
  (864850382730194800, [0x59848868]);
  (867319643989231900, [0x8def]);
  (872448973427986900, [0x5f9789d28cc78d4496be96e3]);
  (875115798136203000, [0x51b7594f5e9567d370707a7a928094f69b42]);
  (877855695555014600, [0x51995beb5de6643a651c654f671b]);
  (880672783251684200, [0x6b96]);
  (883571536939009400, [0x540d60256279724776ae]);
  (886556833253977500, [0x52c76e7f6fd5788d79197e2b7f1d889697f39f529f7f]);
  (889633999120652800, [0x5377573a583479817f577f85]);
  (892808868952111000, [0x98189886]);
  (896087851234409900, [0x5b8b62118ca78d2b91dd9488]);
  (899478006401978000, [0x53c95e55667a68b36d77]);
  (902987138383105000, [0x6bd27e8c7eed7fbd9999]);
  (906623902800192600, [0x5bb3675f6838903890e898df]);
  (910397935598477300, [0x53d75e74678169756ce172067d307ec6]);
  (914320006913805400, [0x4e135c086599661f669670df71597bf78349]);
  (918402206365831000, [0x5229573074e3793c79ae7de37f189633967d]);
  (922658167807710500, [0x6284]);
  (927103344064793900, [0x623f7d717edf8b5c8c31]);
  (931755345628283200, [0x8b6f8bd19686]);
  (936634362045226400, [0x520659045f205f3586558a2d8bbe]);
  (941763691483981400, [0x4ef750f95e3c5e5763a87a057a0e7f38]);
  (947170413611009100, [0x54385ba15be95e7b7bc08017828283778e2a93c894fe]);
  (952886254995004000, [0x4e2d51b3524a5c945e265e3668d56c7a]);
  (958948717176647300, [0x500d70c8958095e8]);
  (965402569290404400, [0x5b57672f6761689d6d4e6fdf7b977de87f1688539bae9c9c]);
  (972301856439099600, [0x53f3579258a858d85feb72697d2b8584895f8fa3]);
  (979712653654471800, [0x52a355b756745c16]);
  (987716924421825500, [0x517351c651fa53d854735be16e967c9881708b8a8cbf8d3895dc98ef996d]);
  (996418062120788400, [0x51a058ee58ef59997ffc8e4498fe9970]);
  (1005949080101221000, [0x4eae52125283755980cc81c28861]);
  (1016485131667003500, [0x539a53e35b9e5be65f8b6b7b925b94c5969c]);
  (1028263435232641900, [0x66f26746687f6eb67c7d88c6896089e689f89165]);
  (1041616574495094100, [0x4e50507f511f59cb5b856a026b636df7754f79a782f18f2a8f6e9a579a8c]);
  (1057031642477820000, [0x4f5c537053f05668591a67286cb96d6e710a80a289368db3]);
  (1075263798157215500, [0x558456de56f4570d58fd5bff69a870b970eb71d9780279c67a08886396e89ede]);
  (1097578153288636400, [0x4e8653f25c3d683c73ed76e176ee773c7bb17f508a1f8b588bbc8bc698019875]);
  (1126346360533814600, [0x4e5d4ed8513f5152516c53e45986599d5df45f1362b570bd70ed71b171be79d27cef816e8fdb9032932f9519]);
  (1166892871344631000, [0x4e1d4f7f4f9b5219524759735c455e725e7965a965ac6d4a6fc1719f7ba17d727db17eb280a980f6811a817381a0822c; 0x85cf98db98de9f3b]);
  (1236207589400625500, [0x503c514b5176521b5275533b538653cb548c5939593e5c01613f6297679d68ad6b776b8b6b98753b756b76f47d447e69; 0x7ec47ef3820c84b88d778fab8fae91ab92ae947e966996aa971c985899219985])
].
(** prob_emit.go:29992-29992 probEmit, state 205 *)
Definition emit_205 : list (Z * list Z) := [].
(** prob_emit.go:29993-30079 probEmit, state 206 *)
Definition emit_206 : list (Z * list Z) := [
  (210250961462251100, [0x662f]);
  (272996416999050150, [0x4e8e65bc]);
  (277930340255214300, [0x4e3a70ba]);
  (280330851463800400, [0x679c]);
  (283283642610223800, [0x65f66642]);
  (289290762811952200, [0x53ca]);
  (294636119220203600, [0x4e14]);
  (294843443129474400, [0x7136]);
  (301215278594079640, [0x6b64]);
  (305326417418322800, [0x4ee5]);
  (310552554334901000, [0x800c]);
  (318807510849272060, [0x5916]);
  (333807388620409060, [0x8fc7904e]);
  (363931573165177300, [0x7ba1]);
  (371616120593234630, [0x540e5f8c]);
  (396564980039124750, [0x8005]);
  (397841107236735900, [0x4ec550c5]);
  (414052451426074100, [0x8981]);
  (422976412709193300, [0x5176]);
  (425671898723198600, [0x9762]);
  (446854291928808860, [0x4f7f]);
  (449379847997516450, [0x8ad68bba]);
  (456508979374232400, [0x77408457]);
  (460324155970670000, [0x8aaa8bf4]);
  (481539771434606840, [0x6709]);
  (485455598798760700, [0x52195247]);
  (504456938897577000, [0x4f46]);
  (504614109853310660, [0x6b21]);
  (510902938944273400, [0x4e4b]);
  (525969647346672300, [0x82e5]);
  (531165621239743400, [0x4fbf]);
  (534981082736871800, [0x81f3]);
  (571098633193808250, [0x4f866765]);
  (582762323566384300, [0x51b56cc1]);
  (590530618679883800, [0x672b]);
  (606941029250107600, [0x81f4]);
  (613147194197097100, [0x975e]);
  (625655747831285500, [0x6015]);
  (643519190951800100, [0x514d]);
  (647706598198905950, [0x5982]);
  (662193965121751700, [0x4e489ebc]);
  (683280151768585600, [0x6216]);
  (702360968835712900, [0x5149]);
  (711579974082521100, [0x898b89c1]);
  (740244393046457200, [0x8a00]);
  (752126484893337500, [0x5f537576]);
  (773394926945744700, [0x4ee4]);
  (781833666173499500, [0x8ff0]);
  (793141380635396600, [0x60df]);
  (803521060003561000, [0x53cd]);
  (805892712665292500, [0x535555ae]);
  (825251187572559000, [0x4e0d]);
  (865313435935796700, [0x5948]);
  (872835778059555500, [0x53ea]);
  (879289630173312600, [0x771f]);
  (882679785340880800, [0x5b815be7]);
  (889825681739095300, [0x770b]);
  (919836140984129000, [0x8a718bdd]);
  (933189280246581300, [0x51e05e7e]);
  (942150496115550000, [0x4e4e]);
  (962914432593374400, [0x72ec7368]);
  (999686910605906200, [0x66f08b1b8bb2]);
  (1150094650283533500, [0x80af]);
  (1219409368339528000, [0x5f92])
].
(** prob_emit.go:30080-30650 probEmit, state 207 *)
Definition emit_207 : list (Z * list Z) := [
  (293369807328720040, [0x7136]);
  (297844077644393000, [0x7d937ecf]);
  (357527772155756100, [0x662f]);
  (366553626656636440, [0x5e38]);
  (367548659741953280, [0x5225522b]);
  (382066721217571770, [0x5b9a]);
  (382563488086507240, [0x6b65]);
  (401571588291845800, [0x4f866765]);
  (416656795226816450, [0x76f4]);
  (417124769172412800, [0x4e4e]);
  (422832850497427250, [0x65f66642]);
  (423956545505038500, [0x4e3a70ba]);
  (429291358574310000, [0x5ea6]);
  (431061759720615900, [0x5bf95c0d]);
  (431729584173124700, [0x9808987b]);
  (434002896739781450, [0x8f038f83]);
  (442529861616894000, [0x65ad65b7]);
  (443269622198356300, [0x671f]);
  (444130048156759100, [0x81f3]);
  (448808114429465800, [0x5206]);
  (451087647345112300, [0x6b64]);
  (451531244296803500, [0x5148]);
  (454650098442405250, [0x6e106f38]);
  (454917121297993100, [0x540e5f8c]);
  (456861027001215400, [0x5e45]);
  (462191442371392650, [0x597d]);
  (463639651659354500, [0x4e0a]);
  (468285540566587100, [0x7d427ec8]);
  (469342450982685300, [0x8a318bb8]);
  (469527945378295500, [0x8981]);
  (470773446595438300, [0x4e0d]);
  (475824311301382000, [0x5728]);
  (477244846307099650, [0x5feb]);
  (477660201630576100, [0x5b9e5be6]);
  (478645165405464300, [0x6562]);
  (479448382575190700, [0x901f]);
  (481729534921426800, [0x4e8e65bc]);
  (483806614185692100, [0x5176]);
  (484021007178553500, [0x53736b63]);
  (484063940989588650, [0x6b21]);
  (487396855171048900, [0x5c11]);
  (489445218633161000, [0x52a0]);
  (494717757580042000, [0x65b0]);
  (494972859759202500, [0x540c]);
  (498813227551627800, [0x4ee5]);
  (501810589503676100, [0x68376a23]);
  (502668963872815300, [0x672a]);
  (505626051000804560, [0x8fb9908a]);
  (506894944801803600, [0x7adf]);
  (510130171670170600, [0x5fc5]);
  (513051876051855200, [0x65e9]);
  (518718222508069500, [0x518d]);
  (520145361918602860, [0x8d8a]);
  (521613999340441800, [0x58f08072]);
  (522535086028317300, [0x81ea]);
  (523273875668306300, [0x523b]);
  (524167688811854000, [0x5f80]);
  (527958166544313700, [0x5f537576]);
  (528024796196973200, [0x8fdc9060]);
  (529029605365554400, [0x610f]);
  (529592226406317400, [0x529b]);
  (530544614557443000, [0x7684]);
  (531967309503777900, [0x65e6]);
  (539600572262015700, [0x9762]);
  (545191771974632900, [0x5e74]);
  (545959682540168800, [0x9053]);
  (546172561811620900, [0x5f97]);
  (546894393578340600, [0x7d1b7eb7]);
  (548517366719133800, [0x521a525b]);
  (550778908222894300, [0x5df2]);
  (550862625264200640, [0x70b99ede]);
  (554212356558033800, [0x7d277dca]);
  (554501457655603950, [0x5c065c07]);
  (554907608489522000, [0x5e95]);
  (556283307047843400, [0x958095e8]);
  (557947535651128900, [0x4e92]);
  (560804872895534600, [0x5fd9]);
  (562798087435186100, [0x4eca]);
  (563714510344298500, [0x59048655]);
  (564351455172846500, [0x7d047ea6]);
  (565185595395955400, [0x76f8]);
  (569329562201870900, [0x4ec550c5]);
  (571639447509712500, [0x591a]);
  (571776999113243500, [0x800c]);
  (574144797754267600, [0x5730]);
  (577914764933459600, [0x52a852d5]);
  (578759892138891700, [0x6982]);
  (579947730901154600, [0x5927]);
  (581604395295943700, [0x90fd]);
  (589173018059201400, [0x6015]);
  (590078001611193150, [0x4e0b]);
  (594039750218405400, [0x590d]);
  (594773302590816800, [0x76ca]);
  (597272884600308300, [0x6162]);
  (598299450187679500, [0x4e489ebc]);
  (600110273773980100, [0x673a6a5f]);
  (602234083978908700, [0x5c31]);
  (602748704997692900, [0x5411]);
  (603643881764660700, [0x884c]);
  (604738349030380700, [0x5fae]);
  (606038632219141200, [0x7e8c7eed]);
  (606232712823487400, [0x7591]);
  (607356045759225100, [0x4e5f]);
  (609792159271084700, [0x4f5b]);
  (610956434634825300, [0x624b]);
  (611979985024228000, [0x4e3e7e7c7ee78209]);
  (612910224290459300, [0x521d]);
  (613901622966224500, [0x81f4]);
  (618956462450781300, [0x5c0f]);
  (619398696449568200, [0x4e2d]);
  (621074713335314800, [0x4fbf]);
  (627292225234397200, [0x8f158f7b]);
  (627893549956742400, [0x773c]);
  (630027126774807300, [0x8feb]);
  (630088760058730600, [0x53d1767c]);
  (630521259960590700, [0x7981]);
  (630583198643277000, [0x8fde9023]);
  (633283519700704300, [0x66fe]);
  (634050296620488750, [0x91cf]);
  (638913278402586400, [0x7528]);
  (642268608565449500, [0x72ec7368]);
  (646029250359790550, [0x513f5152]);
  (650238066451685600, [0x65e5]);
  (652141435675015800, [0x505c]);
  (652218329181303600, [0x6cd5]);
  (652295281859206400, [0x6027]);
  (653301093046509900, [0x514d]);
  (653378883793334350, [0x9f4a9f50]);
  (653534647064702800, [0x4e4b]);
  (654395709136259600, [0x5fc3]);
  (657024295363352100, [0x660e]);
  (658405869553112300, [0x672c]);
  (659310109170957100, [0x65e7820a]);
  (660139301318268100, [0x5916]);
  (661143493857188200, [0x7b97]);
  (663440489785080700, [0x786e78ba]);
  (666943474918002200, [0x6df1]);
  (667479669232140800, [0x591c]);
  (669288036775470300, [0x975e]);
  (672911284939242600, [0x5171]);
  (674725177153682900, [0x6613]);
  (680271152690819800, [0x53ef]);
  (680373037569730100, [0x89ba89c9]);
  (684535969567728400, [0x8fc7904e]);
  (684748735605440100, [0x8fd1]);
  (688547347487048700, [0x8106]);
  (691011077925587300, [0x96be96e3]);
  (692380962361403450, [0x813881c9]);
  (696726919309582100, [0x5f8b]);
  (697934663458559400, [0x7de97f13]);
  (698421875140959400, [0x4e00]);
  (701019423781285500, [0x5948]);
  (701144815647244900, [0x52675287]);
  (701900486749501000, [0x5c14723e]);
  (702534604283345750, [0x624d]);
  (704202378667524200, [0x6084]);
  (706691046725470800, [0x4f5365749ad4]);
  (706956651131282400, [0x5929]);
  (710200178706597800, [0x80fd]);
  (713268759776942200, [0x5012]);
  (713410503245039500, [0x53e4]);
  (714408373250029200, [0x5019]);
  (716580797569187400, [0x8d8b8da8]);
  (717610975921970000, [0x5757584a]);
  (718651877513443500, [0x52bf52e2]);
  (719854899541097700, [0x504f]);
  (723239838088512900, [0x6697]);
  (723553317969050000, [0x5c3d76e1]);
  (724183241311848750, [0x6070]);
  (725615246689323600, [0x4e2a500b751f]);
  (728542284919334900, [0x983b9891]);
  (728872863732784900, [0x6709]);
  (730710843626493800, [0x5e7c]);
  (734491362560665400, [0x5934982d]);
  (734842240113633300, [0x573a5834]);
  (735018141654151250, [0x72e0]);
  (737333472151622900, [0x534a]);
  (737875478898556800, [0x5077]);
  (738238455703614700, [0x8eab]);
  (738602754831464800, [0x9014]);
  (745202699009189400, [0x7531]);
  (748774507269397400, [0x65b9959395f4]);
  (748976731807474100, [0x4e9b]);
  (750403871218007450, [0x4e094e45]);
  (751228618161009100, [0x4f4f]);
  (753744474124624600, [0x6b7b]);
  (756325262520211900, [0x4e149867987e]);
  (758527994752041000, [0x7a0d]);
  (760099295318496500, [0x79ef7a4d]);
  (764021366633824700, [0x9ed8]);
  (765443191534052600, [0x602a780178bc]);
  (766885524230163100, [0x6108]);
  (767614567556431000, [0x6570657882e6]);
  (767858767921986200, [0x4f8b]);
  (771088862400818350, [0x99ac9a6c]);
  (771341707036154200, [0x7a7688e191cc]);
  (772615609613897200, [0x8fdf9072]);
  (776537680929225300, [0x5de7]);
  (777879982962439300, [0x53e3]);
  (778150619122213700, [0x547356175c1d]);
  (780342487692978300, [0x547d]);
  (781456705348302450, [0x60c5]);
  (782583477832936700, [0x4e8f8667]);
  (784010035548819000, [0x507f511f7d307ec6]);
  (784297805531580500, [0x4e714e82]);
  (784586406020493900, [0x8086]);
  (784875841823130400, [0x665a]);
  (787519167529946000, [0x7262]);
  (788716786634617500, [0x5bb6]);
  (790847765293292600, [0x5e9461c97b49]);
  (791155931947033400, [0x8cab8d2f]);
  (791775128971825600, [0x771f]);
  (795250992308342900, [0x7cb9]);
  (801897956809117000, [0x7d717edf]);
  (807190196954551500, [0x6d3b]);
  (809018401438296300, [0x51e1]);
  (815103929010423800, [0x756a]);
  (817084191740041800, [0x7a777aae]);
  (817484993879795700, [0x4ece5f9e]);
  (818291449863468600, [0x4e86]);
  (819104462471793800, [0x6599]);
  (819924139192211500, [0x8a728be5]);
  (823271732111850500, [0x500d]);
  (824126438169696300, [0x4e265e76]);
  (825422352633946800, [0x822c]);
  (826295720630822200, [0x898b89c1]);
  (830323110544616200, [0x6279]);
  (830780777247357500, [0x6c926ca1]);
  (831240548172220400, [0x524d]);
  (834519530454519500, [0x6708]);
  (835958404199729400, [0x51675185]);
  (836442666647308300, [0x6bcf]);
  (837909685622087600, [0x613f9858]);
  (839899801053817200, [0x535555ae]);
  (842961264635777900, [0x6545]);
  (844527876310217700, [0x8033]);
  (845055582020302200, [0x8db3]);
  (846119421840807600, [0x8aaa8bf4]);
  (846655616154946200, [0x5c615c62]);
  (853324753604813500, [0x767d]);
  (856833885585940500, [0x4ef6]);
  (858635736136208300, [0x7565]);
  (859855263445590100, [0x83ab]);
  (860470650003028000, [0x5306]);
  (862339863304243300, [0x7741775c]);
  (862970780223569600, [0x7ad68c4e]);
  (863605702991435600, [0x4e2556b4]);
  (864244682801312600, [0x80af]);
  (864887771834341700, [0x7d1a7ea7]);
  (865535023284903500, [0x8f128f84]);
  (866186491387022900, [0x4f1756e2571876d876e4773e]);
  (866842231441638800, [0x9ad8]);
  (867502299844773900, [0x4e8b]);
  (868835652931720400, [0x5189]);
  (869509056149855000, [0x5f90]);
  (876504915010546000, [0x775b]);
  (877232190943453800, [0x62b5]);
  (878702805682423400, [0x5f526b7891cd]);
  (879446303531175200, [0x614e]);
  (880195370704091000, [0x6216]);
  (881710551206151300, [0x52c76687]);
  (882476838480708100, [0x7a0b7b147b46]);
  (884027257134304600, [0x8877]);
  (884811574880407300, [0x50cf]);
  (885602092831118500, [0x7a7a]);
  (887202126965762600, [0x51748208]);
  (891317934215113400, [0x52ff7aef]);
  (892161821079700000, [0x639264787a00]);
  (893012890046490800, [0x661f]);
  (896491501655032300, [0x8349]);
  (898277263395033000, [0x8a088ba1]);
  (899182246947024800, [0x77408457]);
  (900095495303352000, [0x574798039877]);
  (901017160813844400, [0x7d209632]);
  (903834248510514000, [0x6c146c238882]);
  (906733002197839300, [0x80a9]);
  (907718231842140400, [0x6700]);
  (909718298512807300, [0x4f555df4]);
  (910733535659209200, [0x8fed]);
  (913842594366212200, [0x612461a4]);
  (917051425821362400, [0x5e78]);
  (921496602078445700, [0x4e56]);
  (922639471660808000, [0x8170]);
  (923795553900915700, [0x60bb]);
  (932285498279564200, [0x4e016127]);
  (934849741340898000, [0x56f55707]);
  (938823774205849500, [0x70df7159]);
  (941563671624660800, [0x5555]);
  (942962295822134800, [0x5eb8]);
  (944380759321330600, [0x87028b588bc6]);
  (945819633066540500, [0x5ffd]);
  (948761021587169800, [0x75c5]);
  (956516845021757200, [0x6a21]);
  (958142897108935200, [0x79bb837796e2]);
  (959795827304056300, [0x4f18512a]);
  (961476539135694400, [0x520772af]);
  (963185982471624400, [0x75db]);
  (964925156742811300, [0x8aa08bda]);
  (966695114452751400, [0x5ead]);
  (970331878869839000, [0x59cb]);
  (974105911668123700, [0x6e90]);
  (978027982983451800, [0x7c97]);
  (980048253715203700, [0x521252835de5]);
  (982110182435477300, [0x80c681bd]);
  (986366143877356900, [0x6839]);
  (990811320134440300, [0x4e1659a8817f]);
  (995463321697929600, [0x6cdb]);
  (997873076855835500, [0x516c751a]);
  (1002874118913301700, [0x5b50]);
  (1005471667553627800, [0x52a98cbb8d39]);
  (1008138492261844000, [0x53866b77788c8d7798059879]);
  (1013695477377325100, [0x6d41]);
  (1016594231064650200, [0x6761689d7f8e]);
  (1019579527379618400, [0x559c7406]);
  (1022656693246293700, [0x51c65c425c6465e06e967121]);
  (1029110545360050800, [0x8a5e8bcd]);
  (1032500700527619000, [0x680f6b04901a]);
  (1036009832508746000, [0x539a62366237]);
  (1039646596925833500, [0x4ef750f9603b7e3d8a00]);
  (1043420629724118200, [0x9699]);
  (1047342701039446300, [0x540d]);
  (1060126038190434800, [0x4f8351e05e7e]);
  (1064778039753924200, [0x53ea738779c1]);
  (1074786385609622400, [0x8ac48c06]);
  (1080193107736649900, [0x600061f7]);
  (1085908949120644700, [0x5e2d]);
  (1091971411302288300, [0x52b252c154085f0f77ac91dd9488]);
  (1098425263416045400, [0x811a8173]);
  (1112735347780112800, [0x6211]);
  (1120739618547466400, [0x517c56345e265e366b79984d989d]);
  (1129440756246429300, [0x5b57]);
  (1138971774226861700, [0x4ea653f0557b5c017b2c82729577957f]);
  (1149507825792644400, [0x58025a13637780f89996]);
  (1161286129358282800, [0x53e5622a7687]);
  (1174639268620735000, [0x4fdd67436b0a9f529f7f]);
  (1190054336603461000, [0x66146bd4]);
  (1208286492282856300, [0x4f4d8111816688c588dd8cc78d448ef88f74]);
  (1259369054659455300, [0x5ddd6ee16eff7ffc82e5]);
  (1299915565470271900, [0x5197575a580562106253659c7df47ec3961f968a]);
  (1369230283526266400, [0x53167ade7af67ba198029876])
].
(** prob_emit.go:30651-30652 probEmit, state 208 *)
Definition emit_208 : list (Z * list Z) := [
  (0, [0x8981])
].
(** prob_emit.go:30653-30653 probEmit, state 209 *)
Definition emit_209 : list (Z * list Z) := [].
(** prob_emit.go:30654-30665 probEmit, state 210 *)
Definition emit_210 : list (Z * list Z) := [
  (65302718677052000, [0x5440]);
  (137466632312477130, [0x54df55b2]);
  (250260622688740140, [0x54c8]);
  (255766600407042870, [0x547c]);
  (286439627149290400, [0x4f195925]);
  (491852000518845100, [0x98e89957]);
  (652795791762255000, [0x563b585e])
].
(** prob_emit.go:30666-30666 probEmit, state 211 *)
Definition emit_211 : list (Z * list Z) := [].
(** prob_emit.go:30667-30742 probEmit, state 212 *)
Definition emit_212 : list (Z * list Z) := [
  (181995716978178330, [0x540e5f8c]);
  (216279878430409000, [0x90e8]);
  (234450594751309400, [0x959395f4]);
  (270255382362221000, [0x9762]);
  (276728051589665900, [0x524d]);
  (280537925898922860, [0x4e0a]);
  (298501321249628140, [0x671f]);
  (302662129072634800, [0x4f866765]);
  (307288537928153200, [0x4e0b]);
  (346042769645660400, [0x8fb9908a]);
  (356413572575614100, [0x65b9]);
  (366902020427408140, [0x8fd1]);
  (377198841145712830, [0x5916]);
  (386663162986620100, [0x4e2d]);
  (386953538115922500, [0x5317]);
  (403894037496283400, [0x5357]);
  (404157809587941500, [0x56f4570d]);
  (408369613510402800, [0x4fa75074]);
  (415847266002901800, [0x51675185]);
  (451361548624917300, [0x6d77]);
  (476567472417255460, [0x5934982d]);
  (494515037630863200, [0x6e38904a]);
  (516779254882066200, [0x9645969b]);
  (522185977009093800, [0x5cb8]);
  (529099437497760200, [0x54689031]);
  (552464652776121500, [0x65c1]);
  (575633137622533500, [0x7aef]);
  (577340634997791300, [0x897f]);
  (584108796082787600, [0x4e1c6771]);
  (610529667709401500, [0x9e93]);
  (628538073894777800, [0x5915]);
  (632047205875904700, [0x5c425c64]);
  (633849056426172550, [0x6bb5]);
  (643380074406605000, [0x89d2]);
  (654411176488373300, [0x7dda7ebf]);
  (659762771822384050, [0x5411]);
  (669372354688355650, [0x6c5f]);
  (674395567236989000, [0x88e191cc]);
  (743710285292983550, [0x7de37f18]);
  (770676641987893800, [0x9996]);
  (787960923271834900, [0x8def]);
  (797870013536258000, [0x8857]);
  (812420771903381800, [0x4ee3]);
  (819924290497673200, [0x53f68449]);
  (843217446265710500, [0x534a]);
  (851769663609526600, [0x9685]);
  (871440693034132000, [0x81f3]);
  (898770026534100300, [0x6e56]);
  (924721146082608700, [0x672b]);
  (954731605327642500, [0x8fc7904e]);
  (1005814167704241600, [0x5e74]);
  (1014515305403204500, [0x8fdc9060]);
  (1059713817777510200, [0x513f5152]);
  (1115675396571052500, [0x904d]);
  (1184990114627047000, [0x7ffc])
].
(** prob_emit.go:30743-30743 probEmit, state 213 *)
Definition emit_213 : list (Z * list Z) := [].
(** prob_emit.go:30744-30745 probEmit, state 214 *)
Definition emit_214 : list (Z * list Z) := [
  (0, [0x4f4e])
].
(** prob_emit.go:30746-33230 probEmit, state 215 *)
Definition emit_215 : list (Z * list Z) := [
  (457157597360006900, [0x5730]);
  (478272737586901450, [0x8272]);
  (482672770513145300, [0x4e0b]);
  (485925804605185000, [0x52a852d5]);
  (488459876853070400, [0x610f]);
  (492767658996486400, [0x5fc3]);
  (497570149677917700, [0x53d1767c]);
  (501564536291082100, [0x7136]);
  (502720618531189700, [0x751f]);
  (503356887909972500, [0x76ee]);
  (503463327515551200, [0x6709]);
  (507372620094679000, [0x4eba]);
  (514485709439082700, [0x4f86676577e5]);
  (514843065388169200, [0x8a9e8bed]);
  (516164405934008400, [0x4e8b]);
  (523957292053723900, [0x529b]);
  (525140737818424250, [0x9053]);
  (528093972574926000, [0x4e4b]);
  (531700466067005500, [0x51fa]);
  (535295389479298500, [0x540c]);
  (545134348167917900, [0x4e3b]);
  (548085381982856750, [0x5929]);
  (551297830663233800, [0x65e5]);
  (553030976298397700, [0x5f85]);
  (555329928120867600, [0x4e3a70ba]);
  (557866295970053100, [0x5b89]);
  (559345065985491000, [0x4f55]);
  (561035247065751400, [0x6c146c23]);
  (561224820582241300, [0x5916]);
  (562754487119788700, [0x60f3]);
  (564700073781325250, [0x884c]);
  (568708626488890400, [0x4e0a]);
  (570983802187231950, [0x898b89c1]);
  (571403090013235550, [0x4e714e8263aa]);
  (571824143266869900, [0x7406]);
  (572459066034735700, [0x547d5c71]);
  (573311949669487750, [0x662f]);
  (575476536346957100, [0x8a00]);
  (575695594484938900, [0x8db3]);
  (577020117159940950, [0x53ca]);
  (577242586662152050, [0x91cd]);
  (577689015975020600, [0x60ca9a5a]);
  (579722984398732900, [0x7d557edd]);
  (580640422026337000, [0x5f9789ba89c9]);
  (582735958543935800, [0x58f08072]);
  (584396732183901900, [0x6c34]);
  (584876349410251200, [0x843d]);
  (585117023413307700, [0x9577957f]);
  (585358278053846100, [0x5b9e5be6]);
  (585842540501424800, [0x7ffc8a088ba1]);
  (586329159466542200, [0x5c3d76e1805e95fb]);
  (588051219241709200, [0x4e497fa9]);
  (589551247367658500, [0x8d77]);
  (589803454310929400, [0x660e]);
  (591074119437840900, [0x5b9a]);
  (591586941074532900, [0x53bb]);
  (593402814575720000, [0x65706578]);
  (593927750164334340, [0x8ad68bba]);
  (594455455874418700, [0x53d8621862308b8a]);
  (594985961097388000, [0x5999975e]);
  (595519295694924300, [0x6210]);
  (596055490009062900, [0x96e8]);
  (597681542096240900, [0x99ac9a6c]);
  (598229488672703450, [0x540d65ad65b7]);
  (599612636587549600, [0x606f]);
  (601015184123000100, [0x6cd58b708bae]);
  (601866253089791000, [0x52c3]);
  (603590433733241600, [0x6025]);
  (605050313675356800, [0x4e8c5927]);
  (605640285888075600, [0x6b7b]);
  (606531822253870900, [0x602a]);
  (607431378544728700, [0x7591]);
  (609870523857144600, [0x5408]);
  (611112775857000300, [0x8ac78c08]);
  (611425765157893100, [0x820d]);
  (611739737158359800, [0x65b9]);
  (612687611553814200, [0x5e38]);
  (613324556382362200, [0x6d41795e]);
  (613644556655429250, [0x7b11]);
  (615586365241139400, [0x5f80]);
  (615913697775636300, [0x59318aaa8bf4]);
  (616242105295755300, [0x6d77]);
  (617233848961490000, [0x706b79bb96e2]);
  (617566627970757400, [0x5c3e626c63da]);
  (618235526785837000, [0x52dd80dc]);
  (618908930003971500, [0x540e5f8c]);
  (619247339802395500, [0x5b506599]);
  (620269495209549300, [0x60c5]);
  (621302206625134300, [0x8def9f13]);
  (621996653860415400, [0x4e16]);
  (622345694354392300, [0x523b9b44]);
  (622695957409512500, [0x51fb5f0264ca7570]);
  (623047451620256900, [0x811a8173]);
  (623754168342566100, [0x70c8]);
  (624109408503003000, [0x7269]);
  (625904788864662500, [0x65f66642]);
  (626267765669720400, [0x6563]);
  (626632064797570450, [0x6c926ca1]);
  (628102679536540000, [0x4ea168376a23]);
  (628473737476193600, [0x62366237]);
  (629595244558207600, [0x9f529f7f]);
  (629971892837755300, [0x7ae0]);
  (630729472218601000, [0x5e73]);
  (631492834704108100, [0x88e191cc9762]);
  (631876712334824700, [0x80c681bd]);
  (632262069266423800, [0x4f17773e98a898ce]);
  (633037266946855500, [0x59048655]);
  (633427130988421300, [0x52bf52e25df1]);
  (633818520920534900, [0x79c0]);
  (634605926563625500, [0x9806987a]);
  (635399581523199150, [0x9aa8]);
  (635798783650152900, [0x65b096be96e3]);
  (636602000819879250, [0x959395f4]);
  (637006041773579800, [0x6c428b1d8c22]);
  (637411721843141250, [0x5165]);
  (637819054381904850, [0x4e07842c]);
  (639051102820708900, [0x4ece5f9e]);
  (640298520243226400, [0x4e1a696d]);
  (641138861322864350, [0x616e6b628651]);
  (641561694933816500, [0x4e3e53e359345f69820982b1982d]);
  (642841030079807500, [0x901a]);
  (643271138269746500, [0x53ef]);
  (643703104384198200, [0x54468a5e8bcd]);
  (644136944544057900, [0x5b9c7a777aae]);
  (645010312540933400, [0x4f5c6613]);
  (645449873688237200, [0x547358ee58ef]);
  (645891375509148900, [0x5f526b78]);
  (647227698290365600, [0x81118166]);
  (648582120801141400, [0x73b073fe932f9519]);
  (649037702454727400, [0x52298cb48d35]);
  (649495369157468600, [0x51b2624b885d]);
  (650881072623611300, [0x5225522b55bb89e3]);
  (651815658865434950, [0x7d937ecf]);
  (652286247969176300, [0x6d3b]);
  (652759062088770800, [0x4e505e956a02]);
  (653234122364630650, [0x5ea6613f9858]);
  (654672996109840600, [0x5230609f7981]);
  (655157258557419400, [0x524d]);
  (655643877522536660, [0x813881c9820c8fbe9054]);
  (656132876051955900, [0x654589d2]);
  (656624277532198800, [0x4f0f81f3]);
  (657118105696257000, [0x5b9d5bf6]);
  (657614384630469900, [0x654c6575]);
  (658113138781573900, [0x5f717e8c7eed]);
  (658614392963928300, [0x5728]);
  (659118172366924000, [0x520782e6]);
  (659624502562578650, [0x8eab]);
  (660644919580002800, [0x4e09817e9a30]);
  (661159059530044700, [0x4ea4674296dc]);
  (662195338233599350, [0x5f537576]);
  (662717532631714500, [0x4fe1775b]);
  (664834013750918800, [0x56db]);
  (665909292928545100, [0x8f498f6c]);
  (666996260152235450, [0x7a7a821e]);
  (667544206728698000, [0x52b352de5df2]);
  (668095172309795000, [0x7b56]);
  (668649190347356500, [0x5fd75fe7601d61826d4b6e2c77ed8fdb9032]);
  (669766520407169000, [0x51b36c7a7d1b7eb78b588bc6]);
  (670896475932562400, [0x5fd9638c9996]);
  (671466278044026100, [0x56fd570b5947]);
  (672039345514924600, [0x6548]);
  (672615715986599700, [0x79fb9867987e]);
  (673195427755032200, [0x4ec1673a6a5f81f4]);
  (673778519786111600, [0x5bb6943594c1]);
  (674365031731351300, [0x5fb76708767d773c]);
  (676145494194702000, [0x517395dc]);
  (676746096600723200, [0x70ed71b1]);
  (677958232653957700, [0x51685c11]);
  (678569855355701300, [0x8de18ff99645969b]);
  (679185241913139100, [0x4ee37528]);
  (679804438937931200, [0x630798df]);
  (680427493912994800, [0x51e05bf95c0d5e7e6b327d427ec888c2]);
  (681685372133680800, [0x4e008f9e8fad98db98de]);
  (682320294901546700, [0x5c31]);
  (682959274711423800, [0x7aed]);
  (683602363744452800, [0x653e]);
  (684249615195014550, [0x58c17f6a]);
  (684901083297134000, [0x6b637af9]);
  (685556823351749860, [0x958095e8]);
  (686216891754885100, [0x671b7cdf9632]);
  (686881346026751950, [0x5f006d0b958b]);
  (687550244841831600, [0x53eb63a17978798d803391c7]);
  (688223648059966000, [0x5162591c7779]);
  (688901616758503900, [0x60a36df1]);
  (689584213265543900, [0x51755fe1]);
  (690271501194320100, [0x54017acb7c72]);
  (690963545478777400, [0x4e915371887796f2]);
  (691660412410386800, [0x4e45542c807d]);
  (692362169676251400, [0x53416f9c703e8d8b8da8]);
  (693068886398560700, [0x54106d4e6fdf8001]);
  (693780633175447100, [0x4e4e5e9461c9]);
  (694497482123308350, [0x4f535e7465bd9ad4]);
  (695219506920657100, [0x5c3a]);
  (695946782853565000, [0x864e971c]);
  (696679386862772350, [0x65979b25]);
  (697417397592534500, [0x514d53175fae6728]);
  (698160895441286400, [0x4e614f2050b354119109]);
  (698909962614202100, [0x4f59538953b281e39918]);
  (699664683177740400, [0x5e036d6a]);
  (700425143116262400, [0x656c]);
  (701191430390819300, [0x4fd76b6589b789d1]);
  (701963635000210300, [0x6bd4]);
  (704316684741229700, [0x529f7c7b7e7c7ee7985e]);
  (705113501706147400, [0x5316574f58de58eb8e2a]);
  (705916718875873800, [0x60126ec5706d7d2081088109837c]);
  (706726439899135800, [0x4f4f5c065c07]);
  (707542770963051800, [0x821f]);
  (708365820876703400, [0x575065e6]);
  (709195701158172900, [0x59156001614b614e8f4d8f99]);
  (710032526125224500, [0x89c089c2]);
  (710876412989811100, [0x571f5df78fdc90039060]);
  (711727481956601900, [0x6cb3711a]);
  (712585856325741050, [0x4eb24ef74f1a50f96127670389aa8df39ad8]);
  (713451662600052500, [0x7687]);
  (714325030596927900, [0x4e896050679c722d7e467f2a]);
  (715206093565143400, [0x56fe57166c796d367d227de97f13803f836f85e5]);
  (716094988306868100, [0x5f0a5fd8770b91ce]);
  (716991855305144100, [0x539a60ee619a632f66026ce8]);
  (717896838857135900, [0x6478961f968a]);
  (718810087213463200, [0x714c7f8e8861]);
  (719731752723955500, [0x54cd5b58793c79ae904797ff]);
  (720661991990186900, [0x52c78305]);
  (721600966025170800, [0x776b]);
  (722548840420625200, [0x59d3]);
  (723505785522240250, [0x559c591a62986d8c6e6773af74b0]);
  (724471976613413900, [0x517d5760589c7378754c]);
  (725447594107950400, [0x5b885e1c5e5f6253667a6b79710976ea8361]);
  (726432823752251500, [0x77f380fd90229bae9c9c]);
  (727427856837568400, [0x4e2d597388408a718bdd]);
  (728432890422918500, [0x53cd548c60657b97803b92749451]);
  (729448127569320400, [0x6b216c1179cd7a2e7aef]);
  (730473777586039200, [0x966996aa]);
  (731510056289593900, [0x5ead624072b672c08d749f4a9f50]);
  (732557186276323400, [0x771f7bc0828296359663]);
  (733615397209377100, [0x5feb653f670d683c71df8425]);
  (734684926121052000, [0x516b51c05cad5dba5e725e795f626de879c18feb9cf49e23]);
  (735766017731473450, [0x4f8b5883697c6a137b797c4c]);
  (736858924784692500, [0x4e0853d7590d]);
  (737963908403351000, [0x5f205f35]);
  (739081238463163500, [0x554f5c5573897f7595ee963b964d96c59a82]);
  (740211193988556900, [0x788e]);
  (741354063570919100, [0x4e2556b462fe6cbb9ebb]);
  (742510145811026800, [0x507656fa59226416644768a68a738be6]);
  (743679749787345800, [0x4e5f4f1152065bb96e90767e7834827e]);
  (744863195552046200, [0x5e085e2b5f375f3a6263]);
  (746060814656717800, [0x4f2450b75ba2665366c967f16b646beb798f]);
  (747272950709952200, [0x5f7c901d9759975c]);
  (748499959969133700, [0x50125148540f67d38b008c0b918b9b3c]);
  (749742211968989400, [0x57ce63a57db27f51]);
  (751000090189675350, [0x4fa750745b815be7624d8151]);
  (752273992767418300, [0x5047509954095907723d737282e583b7]);
  (753564333251009100, [0x534e53f9560663b764f283ef]);
  (754871541407744400, [0x5a01600061f76ee16eff72af795f8ca18d22]);
  (756196064082746500, [0x519b5b5761c868176b6a707d707e79348b938ba98ecd]);
  (757538366115960600, [0x4ea7507f511f56de71ce75228a668bd5]);
  (758898931321538400, [0x85aa8e4495ca9614984d989d]);
  (760278263534772000, [0x539f54265de55f92786e78ba8e4891d196c6]);
  (761676887732245960, [0x51495e0265877e377f1596ea]);
  (763095351231441600, [0x558465186f138fe2]);
  (764534224976651500, [0x4e245169597d5e9f5ee2707582df9748]);
  (765994104918766800, [0x4efb58575ba367976d8280898ca08d1f8f158f7b]);
  (767475613497280900, [0x547c605976ca7d1c7ead865a865b]);
  (768979401233735000, [0x505a51cf5bb362d46e056e1b81798af18bb397f3]);
  (770506148446813800, [0x5251528d589e6781697576fe86c788c1904f91cf]);
  (772056567100410350, [0x59cb668769ae772981c28363]);
  (773631402797224200, [0x51db51dc63026320639b6493900f]);
  (775231436931868300, [0x5c485fcd6ef477088a2a8bbf9760]);
  (776857489019046400, [0x519953cb5b595b6b5beb5f0368c491929999]);
  (778510419214167500, [0x4f7f601c6190627f6e3476017d0a804b807e8d64]);
  (780191131045805500, [0x518d56e257185f8b73d174cf84038cb88d37]);
  (781900574381735600, [0x582a60b265e770b97565820a8986959295f296f696fe97279ede]);
  (783639748652922500, [0x52a054bd60b860f664de64fb6ce272597a008352973299b39a709f8d9f99]);
  (785409706362862600, [0x4ee460686bb5722a72d78a8d8ba4]);
  (787211556913130400, [0x5352594860da804c8077]);
  (789046470779950050, [0x516c59ff5fcc679076269f0e]);
  (790915684081165350, [0x52a9593a596a65a7719f8f098f7d8fde90239b5a9c7c]);
  (792820503578234800, [0x5f7060ef6163672b68396cb9707070e67169777d96c4]);
  (794762312163945000, [0x5343580266f476f879cb80a080cc8178834996de96f79e21]);
  (796742574893562900, [0x5e7f5ee3606d607660e165836b666bd96e4371677d307dbd7ec67ef0822c8fc190779189]);
  (798762845625314800, [0x56f0583159825fc562a562e562f364c16c886c896d456d896dfa7530754f8b5a8c2d]);
  (800824774345588400, [0x56e0671772c2830298ef996d]);
  (802930115265371700, [0x4ec74f18512a53e56bdb6daf73e07b0b7b4d809890389a379a9a]);
  (805080735787468000, [0x548e5f395f486028671f70df715981ba878d8fa38fdd9055]);
  (807278626459345500, [0x63ac655b6582679d6f6e70c2721b7d007eaa]);
  (809525912044551400, [0x503c573a58345e7c649e655166666761689d6cb8768491dd9488]);
  (811824863867021300, [0x4ec650d55171534a5bd25c1460e761fc723e7533767b8d708e228f038f83946395739da99e5c]);
  (814177913608040700, [0x4f9b500d51b053f65bc674f6801080968449897f]);
  (816587668765946800, [0x4e584e86529e530559375dee6015626e66976b4c738b76ae76df7cbe7f3a7f817f88847185258fa6]);
  (819056930024984000, [0x4ee54fd0538c53ad5598597859e65e44611b632164cb672c723173ed75c777a977da8d8a92b39418949f9510]);
  (821588710823412800, [0x5146632b635f636263db63f4640d67406bba715e74dc751a76d776dc7de37f18809a816e85c9899689c68a508bc88fd4]);
  (824186259463739000, [0x563459885abd5b545e865f31617662b962d962dc644664fa653b666f675f7dd27eea8cf48d568fc7904e914c96d59706]);
  (826853084171955100, [0x52ab54ed604660527d057ea27fa48c8c958395ea]);
  (829592981590766600, [0x51b751ff53a65c405e905ec85eec63a3662067506c996d95753b756b75f476fc7b517bc97e2b7f1d826f827a85dd8abf; 0x8c03947f9ce59e1f]);
  (832410069287436200, [0x4f105250526e52a152d953cc5b665b785be8620f623264c275b27a9c7ac480f88eca8f668fdf90579072907a96d9]);
  (835308822974761400, [0x52725bc25bfc5c0e6559680b68df6b226b6177e277e37a057a0e7a7f7df27f0888709ed1]);
  (838294119289729500, [0x5e8f646768d26d177c977d407ecc8c3799529976]);
  (841371285156404800, [0x4e6651bb51cd568e56ca589958fd5b975bff624863d0661f669666f8673d68516be16c0870e771c371d2724672627701; 0x7a337a697c0784c48c618fb1900090aa9664969096b196f39742]);
  (844546154987863000, [0x4f4e501a521a525b5533592d5c455de75f26629767aa69cd6c4170ad758675db76db7bd17c237d2f7dda7ebf8d758d99; 0x98189886]);
  (847825137270161900, [0x4f5b5668628a653670af73cd755976d876e477e97dbb7efd8cc58cea8d288d458d6692b795009752]);
  (851215292437730000, [0x4e4f513f51525219524754485f6c5ffe613e62df64ec6c616d256e1d70ac795688688cde8d4f8ff795a39601976199b4; 0x9a459a6f9a71]);
  (854724424418857000, [0x5154517b51ed5200537057065713592b595560216191632563ee67dc6ac37a747a8d7ac5823588638b4f8ba58f1d8f89; 0x8ffd98029876990a]);
  (858361188835944600, [0x4e3d4eca51e454d1555e58755bbe5c185f136027628067f46f0f7235727279687b2c7b497bad818f8679898f89c48a93; 0x8cac8cd38d239cf39e979f3b]);
  (862135221634229300, [0x4e014ea25026558a60dc621165936595722c75d276627d2b7da07eff8da38fce97d997ea9f20]);
  (866057292949557400, [0x4ed3500950b2514b535153d65524559a579258d858e45ba05bf55f845f91758f79d27db87e8f7eb67f2082cd84bc8a89; 0x8b7d8ca88d278edf8f6f9152963f9686]);
  (870139492401583000, [0x4e9550a5513b5203532054fa5bbf5bdd5be25c246500653966256ce36e3a6f2b732e737b76c87c8980938af78bbd8eaf; 0x8ec08f298f8890149694]);
  (874395453843462500, [0x4f2550005e1d620863fd652c65e071217ffb8fed9677]);
  (878840630100545900, [0x4f26502b51c9544a57045757584a5ac15bd05bde5ddd5e2d5e7b5f1f626f66b46dbc75be79fd7a627f6e7f8a813e819d; 0x8a348bc990a697ad]);
  (883492631664035200, [0x4ec34fbf4fcf523656365a365c0a601660ed611f615a624e636e63d664da652f68486865695a6a4b6c496ce56cea6dda; 0x6f22724c733e75c576b176ba76d077bb78e87d717edf97389a199a979e7d]);
  (888371648080978500, [0x5112515a53f259875a666295672f6d466f3f70b870db71ed72477d047ea67fe980ba874987ec88538ecc8f68900a901f; 0x905c96629ec39ec49ee8]);
  (893500977519733500, [0x51e153e45a775a925b5d5bf05c045deb61c2621269d06d126ea27051707670bc71497cae7ce781c68a858bdb921e9326; 0x94a7952695f99b27]);
  (898907699646761000, [0x506c50af59d05c385c4d5e96608d62d264d26627665266ec688168a2708a72f17344789179d17ba180a4819a82708271; 0x85cf874788058e358fa98faf8fe9908791d8948995d4961696c0]);
  (904623541030756000, [0x517858a8595760946b8a6e836f7072ac742274347a0b7e317eb58ca78d2b92fc94a29a659aa59ab8]);
  (910686003212399300, [0x4ed95211521d535a53755455561457a258d158f359bb5a9a5ba45d825e7861be620e63e165fa66ff67f36bbc7532756a; 0x805a8584886588dc8a0e8ae28ba88be88cab8d2f8f388f938f9b8f9c968f96a89700978b9a019a8b]);
  (917139855326156500, [0x51a053565373540354c957a35e7d5f815fb560ac61d261f661f8621f638968696a016b866bbf6cab6e3876f477207b80; 0x7c2186508ce3904a98139871987f988599109ad39c499cd69db49e64]);
  (924039142474851600, [0x516e51a459445e265e36616866746e146f0177407d507ed380a98350845785a6884d8a988bf18cca8d3c9020923494c3; 0x98fd99139971997f]);
  (931449939690223900, [0x57645bbd5bec5c015c6562476bd26c646df56e0a6e6f6f067691769a7c9f83358c468cbb8cc88d398d3e8fb9908a984f; 0x989c]);
  (939454210457577500, [0x50f55167518553f7566a5851594f5fea609662db63a9661466ae68d86c5f6f14724d725874a774ee75157b147b467e5e; 0x7ed58069807580c0813982d2865f8a188a638aa48b498bb08bc18be38bef8e81]);
  (948155348156540400, [0x4e4c5091530659be5ea75f7961016234660f677067c468116a396cbd6d016e566f5470cf793a7a847ae57aff82928482; 0x84c9888b8c899b42]);
  (957686366136973000, [0x4f384f4d518a518c525d5265594b596e5be15c5e5c605c6c5cb860fa611a6270633a64fe674e6768694a699c6ed174e6; 0x74f475b5770979658086836b852d86d98a1b8bb98d0a8d5e9633967d98f2996e9b499b4e]);
  (968222417702755500, [0x4eab4ed753ea53f053f358545ccb5df45f155faa60e067956cf0725b7741775c7a9f80a58239832b8afe8bfa8dd1916c; 0x920d949d986b98a4]);
  (980000721268393900, [0x4ed54f9d503e50be51d1541f59a35a7f5bfb5c0b5c0f5ced5e145f2f5f4e607b60d560fb655765ce65e8684268cb6dcb; 0x6e4a70ae751c797f79847e1b7f1a7f308019866b86808721875587f2881f8aa18ab08abc8beb8c018c0a8cec8d258d26; 0x8fb096c197c1]);
  (993353860530846200, [0x52385835594259505a075a3c5a5a5b0c5c815e1b5e455ff562a463ed6a2a6a6b6b726b926b9e6cfd6da96e106f386f80; 0x6fa475ae75cd76217df47ec3800580b4817082a6834f840c86068aeb8b778c0f8ce48d318e1e909190bb9130991a9bfd; 0x9cab]);
  (1008768928513572000, [0x4e8f4f884faf533b536f53775398541b55895591559d58935b875bcc63a8660c665a677f68976cbf6cc96db26deb706f; 0x71c872367455786c80d681ec8273827784dd85cd866787008a2d8aa68bbe8bf58cc48d3f8fd0904b91ab93e19419955c; 0x956b96449685970498e298f499659974]);
  (1027001084192967500, [0x50bb519c52c9538553d953f854c85578562f563156d157a05b095d585db85dfe5e105e335e9c5ef35f1b5f3c60626170; 0x6377655865cf6743675667a367a567e268d76aea6b0a6ee56feb70997275727d731c7334733f7384773778d07c277f5a; 0x7f70804a81ed88d88a0a8baf8c798cc78d138d438d448fb28fd89084934b9396947094a595019505970d987098a69a62; 0x9a74]);
  (1049315439324388400, [0x4e394e944eea4fe950065100514354205723575a58055824585e586b5a065b085bc75c2c609b60e86158618e6301655d; 0x6591671d67b669866c8c6d6e6da66f6472ec7368745f74e2773a7766788d79197cb1805681fc83dc8a1f8ae78bbc8c10; 0x8ce28d248dc38e8d8eb28f9f917191ac925e926494a994ba95e29636968e984c985b989898a0992899869e7f9f6a9f8a]);
  (1078083646569566600, [0x4e1d4e304fce4fed5077510951795256526f528852b252c152e4533a534053475366536b537f540a54155439543c5442; 0x545854e155445ba65baa5c1a5c465c4a5c4b5cb35de25ec9612361b26350654f664f670b6734677c69ad6a386bcd6c38; 0x6f6d70f9739173ca745c74a376297a817a977ad67b5d7b8f7bc77d727fb6809d80bf816b81bb82b38332851a885b8896; 0x89818a138b0a8bad8c0e8c4e8c5090099011906d907891f5947c9497952396999a169a9b9d3b9e3f9f10]);
  (1118630157380383000, [0x4e114e184e604eae4f5a501f5177517c51c6536753db541e54685599566c5c515ff162c9640f6655668868ad6dfc6e96; 0x712672e07a3d7caa7cde7d0d7d667dac7eb37ed97ef67fb97fd280a18114815081e081e583a08662877687e088d58a69; 0x8acb8b808bd78bf78bfb8e47901e903190429165919c91ca91cb9310952595d695ef991299819a559a849d269e2f]);
  (1187944875436377500, [0x4e0e4f54516d5170517451b551c4532e5331536053a254c156325669582f5a465bf85c275d295ec25f55604362936309; 0x657265f76603667766a266e066f0676f6775682a68636a946b3a6b8b6b986cbe6cc16dd271e57545776c77db78b178cb; 0x7aa57aba7b207ba77bcb7c4d7c737de87e697ef37f167fe080ce814b82058207820883ca8499862d8839887d88d98c55; 0x8cb28d408e768ef88f74901b9304932293e494b1954295d5961996cf96db971e9808987b9a0e9a919b139b229e7c])
].
(** prob_emit.go:33231-33232 probEmit, state 216 *)
Definition emit_216 : list (Z * list Z) := [
  (0, [0x60a3])
].
(** prob_emit.go:33233-34063 probEmit, state 217 *)
Definition emit_217 : list (Z * list Z) := [
  (261433717087190140, [0x6bd4]);
  (268229675969132600, [0x884c]);
  (271503222878020200, [0x5927]);
  (302788090988126160, [0x4ea77522]);
  (335346946467367000, [0x5747]);
  (345739089224342900, [0x8b498bc1]);
  (347795487124117830, [0x80c08139]);
  (348771326026342200, [0x4f1a6703]);
  (371829604474157140, [0x4fdd]);
  (388817380833588300, [0x80fd]);
  (395685067413210230, [0x5316]);
  (396416867239594640, [0x6240]);
  (401540398288367700, [0x4e1a696d]);
  (402005335197186900, [0x822a]);
  (413169026524902100, [0x753596fb]);
  (415987354847095100, [0x519b8ecd]);
  (417835503010613900, [0x50a85132]);
  (421025050017622600, [0x6307]);
  (433942983879561600, [0x5e02]);
  (437589646444713700, [0x7d217eba]);
  (442299736885816700, [0x53d1767c]);
  (455048744712623600, [0x671f]);
  (455843977531673200, [0x59d4]);
  (459158450697624100, [0x5171]);
  (465915375091856200, [0x76df]);
  (502459188243624850, [0x6c7d]);
  (505801817499537400, [0x5c0f]);
  (507907158419320700, [0x7b797c4c]);
  (508468642207753600, [0x6295]);
  (509146610906291500, [0x9662]);
  (515706339154872800, [0x4f01]);
  (516924381010559800, [0x5916]);
  (520416007521182700, [0x62186230]);
  (521180342452439500, [0x4fe1]);
  (524297477942733450, [0x5efa]);
  (524694041582068100, [0x8cb88d37]);
  (528610815024490900, [0x534f5354]);
  (529718859602148100, [0x8b66]);
  (530417674465541000, [0x6649664b]);
  (534278053734382000, [0x6dee]);
  (535894547419717600, [0x63a7]);
  (536936999153306000, [0x7701]);
  (537236849452931700, [0x4e2d]);
  (539055081361250700, [0x8cbf8d38]);
  (541845960172958400, [0x90e8]);
  (543271162443678500, [0x8054806f]);
  (543750779670027800, [0x6821]);
  (552626895541369600, [0x5c405de5]);
  (552977773094337500, [0x7ba1]);
  (553860391357164700, [0x51b6]);
  (555830016354737100, [0x7d047ea6]);
  (558394259416070900, [0x7269]);
  (561599057718706700, [0x6559]);
  (567112264788178300, [0x7dda7ebf]);
  (575776603958667200, [0x899689c6]);
  (578461328962286000, [0x68c06aa2]);
  (580292043706721600, [0x8fd0904b]);
  (583340345379229100, [0x529e8fa6]);
  (583578724514756800, [0x533a5340]);
  (584057194327090500, [0x4f10]);
  (586239099066554400, [0x5c55]);
  (594940236765517400, [0x68076a19]);
  (595476431079655900, [0x534e83ef]);
  (597376081148721400, [0x7f8e]);
  (603301650769630700, [0x928094f6]);
  (604765805768925500, [0x5e7f5ee3]);
  (605061226958668700, [0x4f535e749ad4]);
  (605654700510650100, [0x7cae7ce7]);
  (608369799417245300, [0x4f0f]);
  (613708586759051400, [0x5564]);
  (617992602626700600, [0x7a057a0e]);
  (619348555605263850, [0x897f]);
  (619690436280142350, [0x6c496f22]);
  (624964065888236800, [0x7d937ecf]);
  (625325729935255600, [0x79d1]);
  (626053005868163600, [0x54c1]);
  (627153934419000500, [0x5e45]);
  (628267118455884900, [0x7267]);
  (632069858014808800, [0x7406]);
  (634026867634218600, [0x966996aa]);
  (635219724720745900, [0x6539]);
  (637239995452497900, [0x6d59]);
  (638886123157905050, [0x5c465c4a8cc78d44]);
  (640559802393457500, [0x6cb9]);
  (641833704971200450, [0x5236]);
  (644431253611526500, [0x67436b0a]);
  (647098078319742600, [0x65c5]);
  (648916310228061600, [0x5baa61b2]);
  (650768215004785400, [0x6fb3]);
  (652180003159363950, [0x92fc94a2]);
  (655553817122548900, [0x76f4]);
  (656045218602791800, [0x85cf]);
  (656539046766850100, [0x9769]);
  (658539113437517100, [0x5b665b78836f85e5]);
  (660065860650595900, [0x9102]);
  (661096797616482100, [0x5893]);
  (662138473702307600, [0x6797]);
  (664791149135650450, [0x91cd]);
  (668627235922895100, [0x7e2e7f29]);
  (669750843249587650, [0x6e38904a]);
  (671460286585517700, [0x65b9]);
  (672616368825625250, [0x65b0]);
  (674375945014663300, [0x5408]);
  (675566435265295100, [0x653f77ff7926]);
  (676771269116912500, [0x943594c1]);
  (677990796426294400, [0x6d32]);
  (678606182983732200, [0x516c]);
  (681106313204273900, [0x519c8fb2]);
  (686302287097345000, [0x5546]);
  (687644589130559100, [0x89d2]);
  (689005154336136900, [0x793e]);
  (689692442264913100, [0x91d1]);
  (691783110746844500, [0x5411]);
  (692489827469153800, [0x6cd598db98de]);
  (693918423193901400, [0x75188d1b8d63]);
  (695367723924158100, [0x7164]);
  (697581836511879400, [0x6b276b50]);
  (700612371461412300, [0x751f]);
  (702162790115008800, [0x535555ae]);
  (702947107861111400, [0x4ee3]);
  (704534442776740500, [0x5bfc5c0e]);
  (706147380969728800, [0x536b885b]);
  (706963712033644900, [0x6c5f]);
  (707786761947296500, [0x4f73548c5ba2]);
  (708616642228765950, [0x5e2e5e6b]);
  (709453467195817660, [0x535758838c6b]);
  (710297354060404100, [0x4e1652a152d9]);
  (714627034635736500, [0x5510]);
  (715515929377461100, [0x4e134eba5c08]);
  (717317779927729000, [0x583162a58239]);
  (721969781491218200, [0x4fc4]);
  (722926726592833300, [0x7a7a]);
  (723892917684007000, [0x671d767e]);
  (724868535178543500, [0x6cb3]);
  (725853764822844650, [0x8ca18d22]);
  (726848797908161400, [0x6d416e146f01]);
  (727853831493511550, [0x8fdb90329ec39ec4]);
  (728869068639913400, [0x5b815be7]);
  (729894718656632300, [0x4e004e9a4e9e]);
  (735186958802066600, [0x7167]);
  (736279865855285550, [0x769693ae9547]);
  (737384849473944100, [0x6c34]);
  (738502179533756600, [0x91cf]);
  (739632135059149900, [0x53178eca8f66961f968a]);
  (740775004641512250, [0x6d257d717edf]);
  (743100690857938950, [0x6d669ad8]);
  (744284136622639200, [0x6625]);
  (745481755727310800, [0x6b3e]);
  (746693891780545300, [0x540e58025f8c]);
  (749163153039582400, [0x5e7c6842]);
  (751694933838011450, [0x6ee16eff]);
  (755617005153339500, [0x5165533b91ab]);
  (758319872392131400, [0x7de87f16]);
  (759699204605365000, [0x521b527565e7820a]);
  (762516292302034700, [0x6536]);
  (763955166047244650, [0x65f66642786c7fa4]);
  (765415045989359900, [0x9ed4]);
  (766896554567874000, [0x515a9ee8]);
  (768400342304328000, [0x4f2a507d7387]);
  (769927089517406850, [0x5730]);
  (773052343867817300, [0x6d77]);
  (774652378002461450, [0x4ecb5e085e2b6caa6eec901a]);
  (781321515452328600, [0x60a38005]);
  (783060689723515600, [0x91dd9488]);
  (784830647433455650, [0x4ef65c456587673a6a5f8a2a8bbf]);
  (786632497983723500, [0x5175]);
  (788467411850543200, [0x6c146c23]);
  (790336625151758400, [0x78148001]);
  (792241444648827800, [0x6b66]);
  (794183253234538000, [0x7e547ec790ce]);
  (796163515964156000, [0x804c8077]);
  (798183786695907900, [0x88c588dd]);
  (800245715416181500, [0x4f174f18512a773e92c194dd]);
  (802351056335964700, [0x518053f062807d8f7ee58ca08d1f]);
  (804501676858061100, [0x4e8c53e365cf79cd7a2e8f2a8f6e8fde9023959395f4]);
  (806699567529938700, [0x521762d862db]);
  (808946853115144500, [0x70ae852c900f]);
  (811245804937614200, [0x5bbd5bec62d696c6]);
  (813598854678633800, [0x53cb560956ed56fd570b571290ca]);
  (816008609836539700, [0x56e2571865e07121755c7bc07d1a7ea78282]);
  (818477871095577000, [0x516751858f388f93]);
  (821009651894005900, [0x53d8679c8b8a]);
  (823607200534332000, [0x4e5352e4623f754c8ca88d2790099078]);
  (826274025242548000, [0x4fa650755b637ad97aef]);
  (831831010358029100, [0x56fe571676d176e38a138bad]);
  (834729764045354400, [0x4fee8cfd8d5b]);
  (837715060360322600, [0x53cd8a3a8a718bca8bdd]);
  (840792226226998000, [0x8a668bd5914d]);
  (843967096058455900, [0x4f5c9675]);
  (847246078340755000, [0x521252835e725e795fb78abf8c03]);
  (850636233508323200, [0x5c425c645f375f3a602768c98a558b708bae8bc4]);
  (854145365489450200, [0x573a58349577957f]);
  (857782129906537700, [0x52a35b9a63a1684891c7]);
  (861556162704822400, [0x4e09535a62c963926563672f6bd2800388539ebb]);
  (865478234020150500, [0x5f7172ec7368]);
  (869560433472176000, [0x4f4f503c578b7c4d]);
  (873816394914055600, [0x56db56fa6c88]);
  (878261571171139000, [0x597d5c9b5cf05cf65f1f6a216b8b6b988b808bfb]);
  (882913572734628400, [0x4e0d53c253c3592a68506e568d85958095e896359663]);
  (887792589151571400, [0x5170530559875a665e935eab6e58862d]);
  (892921918590326600, [0x5f00662f7ffc958b]);
  (898328640717354000, [0x526f60e0652f6c118f498f6c9f8d9f99]);
  (904044482101349000, [0x4e8b53cc5e015e6365c1670d73b073fe74037b9789e396d9]);
  (910106944282992500, [0x5e735f815fb565e66e2f79c18edf8f6f]);
  (916560796396749600, [0x532f62a264366c476d4b6e2c75307d507ed3827a85dd8a2d8bbe8cec8d2691ce]);
  (923460083545444700, [0x4e5d571f591a5cad5dba603b65ec6bcd7d447de97e3d7ec47f1383779006928594dc966a]);
  (930870880760816800, [0x54f25dde5feb67286df777ed81ea]);
  (938875151528170600, [0x4f4e51b75229545854e15ba15be9654875c576ca88e4893292b7950096469678]);
  (947576289227133600, [0x5382552e57fa5e1d5ea65ee0661f6781697579f07a318b1b8bb28caf8d2e8db3]);
  (957107307207566000, [0x52065ba46cbb6d74724c7a0b97529762]);
  (967643358773348600, [0x4eac4fa850d1513f5152519951a052d8596559675beb5e265e3668636a946e296eab7279886588dc8d8a8f158f7b90ae; 0x90f596329996]);
  (979421662338987000, [0x514954d1555e58f35bb3613f66766bbc6d4e6e1d6fdf75329858]);
  (992774801601439300, [0x4f11504752dd53f8544a58356236623777637a3f7ae07d007eaa80dc8f148f858fdc906095a995fd975e9ed1]);
  (1008189869584165000, [0x538b58d35c115c5e5c6c5f5562d06709720673ed780178bc7db27f5180a189c089c28a628be28cbb8d39900093049910; 0x9a649aa79b6f9c81]);
  (1026422025263560500, [0x4eca5076529b53615377539f540c546858ee58ef5ae95f395f48611b620f6232676f677f68976e90723173e07d227e31; 0x7eb58a188bb08d708fdd901490319055]);
  (1048736380394981500, [0x4e94517352b352de585e62e564c165e56606667a67506d016f5475c77a777aae7dad7ef480b28fb9908a95dc983b9891; 0x98a898ce]);
  (1077504587640159500, [0x4ea450915148518a518c53f3566857ce585158995b895ba35c165c715f0f6015625863f4677068516e057246738977f3; 0x78c17b947f8c898f89c48a0a8baf8cac8d238ecb8f67]);
  (1118051098450976000, [0x4e714e8251c653f254a8553156f05ead666e6bb56e96707070b97586759776427d9c7efc835288c28aee9053969c9928; 0x99869ede]);
  (1187365816506970600, [0x4e114e524e894ef74f4d4fc350f9521d52a052c7575b58c75956674267f4706b722d734e753379817a3b7a3d7a817ae5; 0x808980f0817f84c988408ab28b6f8bd18bfe8cfc8d2d8de88def8fbd9038907c919c96339650967d96be96dc96e398df])
].
(** prob_emit.go:34064-34066 probEmit, state 218 *)
Definition emit_218 : list (Z * list Z) := [
  (40546510810816444, [0x897f]);
  (109861228866810980, [0x91cf])
].
(** prob_emit.go:34067-34067 probEmit, state 219 *)
Definition emit_219 : list (Z * list Z) := [].
(** prob_emit.go:34068-36026 probEmit, state 220 *)
Definition emit_220 : list (Z * list Z) := [
  (364060692402866300, [0x8aaa8bf4]);
  (364786512132896060, [0x4f866765]);
  (375711272083911750, [0x4e0a]);
  (380151354097489200, [0x5bb6]);
  (395064850577528270, [0x672c]);
  (396055803501270140, [0x7269]);
  (400658759009531300, [0x5230]);
  (410831891674118800, [0x503c]);
  (431400037585237600, [0x5b665b78]);
  (434377925120798700, [0x52a852d5]);
  (439600098919296900, [0x591a]);
  (446124747496188100, [0x5206]);
  (449700676366658900, [0x7684]);
  (465852450200859550, [0x4e86]);
  (471531761904082900, [0x5b50]);
  (473822220364110400, [0x662f]);
  (474949628021432300, [0x4e489ebc]);
  (475100913980695250, [0x4e0d]);
  (477553144139009100, [0x80c08139]);
  (480865749864924100, [0x5b9a]);
  (483712627770001800, [0x68376a23]);
  (487667707832947700, [0x4e0b]);
  (488184060098952600, [0x80b2]);
  (492774451162064100, [0x8a718bdd]);
  (494966319732828700, [0x6599]);
  (497680571522797000, [0x4ea77522]);
  (498921637571430900, [0x529b]);
  (501845822530880600, [0x7528]);
  (503441070717068500, [0x7a0b]);
  (504960087266466000, [0x6613]);
  (505266679228649500, [0x5019]);
  (507439553127787700, [0x597d]);
  (507544210384854700, [0x4efb]);
  (511604597207281300, [0x4e1a696d]);
  (516064645195709500, [0x4f1a6703]);
  (516178735339288700, [0x4e497fa9]);
  (518371552573149800, [0x5f0f]);
  (520613534384719500, [0x5ea6]);
  (522541304927309800, [0x5730]);
  (525254171666135100, [0x4f55]);
  (527019665190007100, [0x7d717edf]);
  (529206247482363400, [0x6b64]);
  (529597127458868700, [0x5e9c]);
  (530779019089182900, [0x77408457]);
  (540919552670672750, [0x9662]);
  (541506064615912600, [0x65706578]);
  (543586377378888800, [0x7cfb]);
  (545710888240262500, [0x7b11]);
  (548984758178806500, [0x9053]);
  (551228442042389060, [0x5fc3]);
  (553027345825996350, [0x7d1a7ea7]);
  (555027412496663300, [0x6821]);
  (555364680944527200, [0x4eba]);
  (556554159709742200, [0x59169645969b]);
  (560743253880658200, [0x514d5668]);
  (565301928325847600, [0x91cf]);
  (565863202016343350, [0x6e90]);
  (569104667884771500, [0x7dad7ef4]);
  (573057751760435100, [0x5229]);
  (573867472783697000, [0x6b62]);
  (576128617422351700, [0x554f95ee]);
  (577173559009785800, [0x5e9461c9]);
  (578868514841163150, [0x5f97]);
  (580158855324753900, [0x5e8f]);
  (581028426021509300, [0x8981]);
  (584358367428414200, [0x7d937ecf]);
  (585493453395283100, [0x5211]);
  (586180741324059350, [0x4e00]);
  (588271409805990800, [0x673a6a5f]);
  (588741998909732000, [0x8def]);
  (589214813029326600, [0x5c11]);
  (589689873305186400, [0x9762]);
  (591370585136824540, [0x513f5152]);
  (591856022983304350, [0x4f539ad4]);
  (592343828828647640, [0x653e]);
  (592588626992511600, [0x601d]);
  (594319201702270800, [0x5177]);
  (595573923307479700, [0x6c146c23]);
  (596334383246001650, [0x4e2d]);
  (598391011004149400, [0x7d057ea2]);
  (598911845514863200, [0x7d20]);
  (599435406920257700, [0x4e8b]);
  (600490825688126700, [0x89e3]);
  (601289764691474550, [0x8272]);
  (601557502468546300, [0x7406]);
  (602095138172184300, [0x91d1]);
  (603452011092791200, [0x6e05]);
  (604827548599639700, [0x5883]);
  (605104941287912200, [0x5bb3]);
  (606503565485386200, [0x53bb6001614b]);
  (608208152212685100, [0x610f]);
  (609071466927155400, [0x8cea8d28]);
  (609651178695588000, [0x51748208]);
  (611410754884625900, [0x5316]);
  (612901095434883400, [0x8fc7904e]);
  (613201847541278950, [0x8cc78d44]);
  (613503506895221500, [0x4f5c]);
  (614109569356390600, [0x89c089c2]);
  (615025606296257000, [0x767d]);
  (615640992853694900, [0x540e5f8c]);
  (615950112110662100, [0x540c]);
  (617510206154910100, [0x4e89722d]);
  (618141123074236500, [0x5934982d]);
  (619095025378912500, [0x59048655]);
  (620381216743153300, [0x7dda7ebf]);
  (621356834237689700, [0x899689c6]);
  (621684166772186600, [0x5e95]);
  (622012574292305600, [0x54c1]);
  (624005995782387300, [0x98a898ce]);
  (624679399000521800, [0x4ef6]);
  (626039964206099600, [0x898b89c1]);
  (627072675621684500, [0x77e5]);
  (628116163350942500, [0x8a00]);
  (628817920616807150, [0x665a672f8853]);
  (630236384116002850, [0x67aa69cd]);
  (630953233063864100, [0x695a]);
  (631675257861212800, [0x8a088ba1]);
  (632402533794120700, [0x517395dc]);
  (633503462344957700, [0x4e8e65bc]);
  (634616646381842100, [0x5f8b959395f4]);
  (635742361834305600, [0x547d62186230]);
  (636499941215151300, [0x5728]);
  (638032538262974000, [0x793e]);
  (638419385940766000, [0x51b56b966cc1]);
  (639981917731074100, [0x7d277dca]);
  (641569252646703200, [0x6cd5]);
  (642372469816429500, [0x53f8843d]);
  (643182190839691500, [0x91cd]);
  (644821571817259100, [0x5b57]);
  (645235651083862300, [0x8fdb9032]);
  (646068989239776800, [0x6c42]);
  (646488277065780400, [0x7d107ebd]);
  (648183232897157700, [0x573a5834]);
  (648611499076357800, [0x65e5]);
  (650343144077503900, [0x76ee]);
  (651220342684787600, [0x53e3]);
  (652550739247423800, [0x5b98]);
  (653899074281152500, [0x8a2d8bbe]);
  (654352589797691700, [0x542d]);
  (656187503664511300, [0x8b708bae901a]);
  (656651541620161500, [0x5e74]);
  (657117742930742650, [0x6a21]);
  (658056716965726500, [0x65ad65b7]);
  (659004591361180900, [0x8eca8f66]);
  (659481919236446700, [0x8d77]);
  (659961536462796000, [0x52a152d9]);
  (660443465106390900, [0x7e547ec7]);
  (660927727553969650, [0x773c]);
  (661414346519086900, [0x6bd27840790e]);
  (661903345048506200, [0x8c619769]);
  (662888574692807350, [0x751f]);
  (663384853627020200, [0x6b6588e191cc]);
  (663883607778124100, [0x54cd97ff]);
  (664384861960478550, [0x79cd7a2e]);
  (665394971559128900, [0x57df]);
  (666415388576553100, [0x5929753596fb]);
  (666929528526594950, [0x67907136884c]);
  (667965807230149600, [0x660e]);
  (669012937216879160, [0x5c5e5c6c]);
  (669540642926963500, [0x4e4b5e725e7970ae]);
  (670071148149932850, [0x4e167624]);
  (671679761925095300, [0x8b028c13]);
  (672221768672029200, [0x7b97]);
  (672766729148785700, [0x7bad]);
  (673314675725248300, [0x545854e1]);
  (674419659343906700, [0x5165]);
  (674976763848852300, [0x4e3a70ba76ae]);
  (675536989403719300, [0x8c6b]);
  (678965896751582500, [0x5c425c646cbb]);
  (679548988782661800, [0x6027]);
  (680135500727901650, [0x95a59600]);
  (680725472940620400, [0x5c0f6709]);
  (681318946492601900, [0x4f2050b365e9]);
  (681915963191252300, [0x5b897591]);
  (683728701650508000, [0x59278ad68bba]);
  (684955710909689400, [0x5f53757681118166]);
  (685574907934481500, [0x67e5]);
  (686197962909545100, [0x65f66642]);
  (687455841130231100, [0x70c8]);
  (688090763898097000, [0x79df99ac9a6c]);
  (689372832741003100, [0x76c8]);
  (690020084191564900, [0x540d]);
  (691327292348300100, [0x5973813881c996e8]);
  (691987360751435300, [0x606f]);
  (693320713838381850, [0x6210822c]);
  (695354682262094100, [0x60c5632f6b7b7b517bc9]);
  (696041970190870350, [0x531796be96e3]);
  (696734014475327700, [0x5c048003]);
  (699551102171997400, [0x6797682a]);
  (700267951119858600, [0x7d557edd]);
  (700989975917207350, [0x5df2]);
  (701717251850115300, [0x62e964c7]);
  (703931364437836700, [0x6162]);
  (704680431610752400, [0x53d8678469cb770b8b8a]);
  (706195612112812650, [0x8a9e8bed966996aa]);
  (706961899387369550, [0x5236]);
  (707734103996760600, [0x53d1767c7d2f]);
  (708512318040966100, [0x671d6c34]);
  (709296635787068650, [0x65b0]);
  (710087153737780000, [0x62366237]);
  (710883970702697700, [0x67436b0a76df8fdc9060]);
  (712496908895686100, [0x5c3d76e1]);
  (713313239959602100, [0x5f31]);
  (714136289873253600, [0x8fdf9072]);
  (714966170154723200, [0x4ee3]);
  (715802995121774900, [0x8abf8c03]);
  (716646881986361350, [0x6da66f648b588bc6]);
  (717497950953152100, [0x624b]);
  (718356325322291300, [0x5f395f48]);
  (719222131596602750, [0x5de5958095e8]);
  (720095499593478200, [0x6761689d7f3a80de]);
  (720976562561693800, [0x5b63]);
  (721865457303418400, [0x524d7a769577957f]);
  (722762324301694400, [0x51fa5b587a7a811a8173]);
  (723667307853686200, [0x5b9e5be6]);
  (724580556210013400, [0x51487f8a]);
  (725502221720505800, [0x58066c577e2e7f29]);
  (726432460986737200, [0x5272]);
  (727371435021721100, [0x582a6d4e6fdf8868]);
  (728319309417175500, [0x606996ea]);
  (729276254518790500, [0x81088109]);
  (731218063104500700, [0x5347]);
  (732203292748801800, [0x53cb5c71984c9898]);
  (734203359419468800, [0x5bcc]);
  (735218596565870600, [0x4f11523b54736c1176fe83cc]);
  (736244246582589500, [0x71df8425]);
  (737280525286144200, [0x533a534063e1]);
  (738327655272873700, [0x780178bc90009047]);
  (739385866205927400, [0x8f2f8f91]);
  (741536486728023700, [0x7247]);
  (742629393781242800, [0x4e619109]);
  (743734377399901300, [0x4e4551b36c7a79ef7a4d]);
  (744851707459713800, [0x56fd570b5f005feb7736958b]);
  (747124532567469400, [0x591c5ec9706b]);
  (748280614807577000, [0x5269]);
  (749450218783896200, [0x5099559c59075f205f35636e64da6d6a]);
  (750633664548596400, [0x58f0807288c588dd]);
  (751831283653268000, [0x4eca523876ca803398ef996d9ad8]);
  (753043419706502500, [0x5bbf]);
  (754270428965683950, [0x4e4e70b99ede]);
  (755512680965539650, [0x63d0653670ed71b17531]);
  (756770559186225600, [0x4e714e82]);
  (758044461763968600, [0x559d5e38683c8239]);
  (759334802247559450, [0x53d65e7389ba89c9]);
  (760642010404294700, [0x53f0]);
  (761966533079296800, [0x4e8f4f0f86679192]);
  (763308835112510800, [0x627064fe7779]);
  (764669400318088700, [0x51e054bd5e7e7bc0821e8282]);
  (766048732531322200, [0x8d708df3]);
  (767447356728796200, [0x5c55659165bd817a93e1955c]);
  (768865820227991900, [0x4e5d4f4f5ead5f0260ca611b6b3e70e67169723175707b499a5a]);
  (770304693973201900, [0x51e152bf52e28cac8d2390209a5f9aa4]);
  (771764573915317100, [0x4e915bf95c0d5fe761826d418ca18d2296f2]);
  (773246082493831200, [0x53d762537b5680fd]);
  (774749870230285250, [0x5c1661c2670d6d88]);
  (776276617443364100, [0x4e664f4d5f69614e63a866f89759975c]);
  (777827036096960600, [0x541b58026d4b6e2c7c7b8b5c8c31985e]);
  (779401871793774500, [0x6ce880ba820c]);
  (781001905928418600, [0x4e3e4ea1521252836b217978798d8209]);
  (782627958015596600, [0x590d620f62326bcd8a1f8bbc9418949f]);
  (784280888210717700, [0x51685f52671b6b787ae58b938ba98fbe9054]);
  (785961600042355900, [0x627f914d]);
  (787671043378285900, [0x543859315eb7760082e68fd4]);
  (791180175359412900, [0x51fb5fae637764ca748377a77d817ed1]);
  (792982025909680700, [0x5f1f5f809f13]);
  (794816939776500300, [0x656368076a198870]);
  (796686153077715600, [0x798f8349958395ea]);
  (798590972574785100, [0x51496cfc6d256f519813987f9b5a9c7c]);
  (800532781160495200, [0x4ea44fe152dd66256c7073877ba180dc]);
  (802513043890113100, [0x975e]);
  (804533314621865000, [0x4f176708773e7cca8ff0]);
  (806595243342138700, [0x52a064cd6d456dfa6f137a777aae8f498f6c9f0e]);
  (808700584261921800, [0x4e9453ef56e257186b4978b179c180bf816b8270827195f99b279e7c]);
  (810851204784018300, [0x52c765e071217f6a]);
  (813049095455895800, [0x725980ce]);
  (815296381041101600, [0x53565bb96a2a6a6b762980a0810281788ce3]);
  (817595332863571600, [0x521754085a926cb98cb48d359ebb9ed1]);
  (819948382604591000, [0x52c356de5e2d60d1624d62986f2b916c]);
  (822358137762497000, [0x51c0521d5dee602a6d3c6de8725275db7aaa7cbe81f3836f85e588408a698bd78cec8d268eaf8ec0]);
  (824827399021534200, [0x53ca53f25cad5dba5df160f365b97a057a0e7fa4]);
  (827359179819963200, [0x51c9535a56345f6266976b8a6dbc6ee56feb8eab9176]);
  (829956728460289200, [0x53f35fcd666f71e57ad980cc89e689f88f298f889867987e]);
  (832623553168505400, [0x5047539a5a186c606ea2795e7b548afe8bfa95a396019aa89cf49e23]);
  (835363450587316900, [0x54c956fe57165f845f915fcc5fd970ec71fc7aef817099109f529f7f]);
  (838180538283986500, [0x503a50b552075c406d8c6e566e67719f75c592b79500]);
  (841079291971311700, [0x4eb2594b596e661f6db2783479d17d427ec889aa96359663]);
  (844064588286279800, [0x533b5e085e2b612461a467a268a26a1e77e9804c80778ca08d1f91ab]);
  (847141754152955000, [0x4ee44ef74f9d4fbf50f952545e1862dc754c7c3e]);
  (850316623984413200, [0x4e3b4f6c517153575ddd65976df185cf943594c19b25]);
  (853595606266712200, [0x4e254f594fee518a518c540356b45c655ccb62d6665366c9724c7968797f7984805e868187fb95fb9918]);
  (856985761434280300, [0x5e7c6c9980a98a898b7d8fce]);
  (860494893415407300, [0x523758eb626f69ae6b226b61707d707e70e771d276c67761836389d28da3961f96349670968a98db98de98df]);
  (864131657832494900, [0x4e504eae4f2450b751ac5f375f3a5fd7601564ad68b06a026e387e3e7ee980898a5e8bcd8f468f98904a]);
  (867905690630779600, [0x5167518556f4570d6d3b7532771f8aeb8c0f904296489673]);
  (871827761946107700, [0x5b8863fd64166447652c75c781f482738277864e8ac78c08964696789b3c]);
  (875909961398133200, [0x4ec75305544a594760b262936bdb6ec5706d70c2721b756a7e2b7e8c7eed7f1d827a85dd]);
  (880165922840012800, [0x54ed57ce5a01655971ce76db7c977d228fa98faf918999c19a73]);
  (884611099097096200, [0x505c516c52b352de534e59575c4561556208626363a065e771677d047dbf7ea67ef58096820a83ef8ca78d2b8df58e10; 0x8f9c8fa8]);
  (889263100660585500, [0x52245251528d5ff5600061f76cb36d0b70707130751c754f7c8980f883028c6a8ced8d0a8d4c8d5e]);
  (894142117077528700, [0x519b519c51f3583159225bdf5f2f5f4e609462a566f268a668cb6ce272de737076d6795a79bb7b797c4c7d507ed37fe9; 0x84cb8af18bb38ce68d4b8d6b8dc38e8d8ecd8fb28fb9908a96e2]);
  (899271446516283700, [0x517551ff536b5584570657135a36611f613f6548656c65fa6d016f5474f7753076ea772082a6836185848606885b891b; 0x89388b008b1b8bb28c0b8cde8d4f8dda901d91ce947f97009858]);
  (904678168643311400, [0x5200529f54955b9d5bf65ea75f7161086545659365956c496c9b6e346eda6efe6f22767e76f8817f8cc88d3e8db39178; 0x96c49707]);
  (910394010027306200, [0x4e8c5012536f574f58de59d359ec5b955ba26065635f640d65576881727277ed793c79ae7a337a697d337d5e7e417e69; 0x7ec57ede7ef3803b85c98b808bfb8d258fe99087975298189886]);
  (916456472208949600, [0x4ed7544859825bab5bae5bd25c3a5df764e6667a69777f698a558a8d8ba48bc48ce28d248f9e8fa38fad906e9633967d]);
  (922910324322706700, [0x500d52b252c153f7549057a059ff5a5a5c315c816016628a6b726cb16ce36df56e0a728a72a280018017832b865f8702; 0x905990659996]);
  (929809611471401900, [0x4ed6548e5578562f592b5c065c075e015e025e635e935eab644a649e65246572675068486d776e897f5080a18fd0900f; 0x9012904b905e9152932294b198249890]);
  (937220408686774100, [0x4e1d53e56059607c60dc60f1653f654f68656a4b6cea6dda6de16e1d720672af72b672c075ab7a007b7e7c3d7cfe7d72; 0x7ea07f7281c2821b934b950596f7]);
  (945224679454127800, [0x502a50915141516d529d52f85374537b53c953cd56325b545e7b603b6167623f62db6770681168cd6a396e7f6fd57434; 0x78b47acb7e3d7f758150897f8ac98bff8ce48d318d768d9590ce91d89489963b9a829b449ce59e1f9f3b]);
  (953925817153090700, [0x53f6547c589959bb6025667467516ce56cf36fc07246738b75af760b7de37f1880f681a084498cf48d568f4e8f7f964d; 0x9709980398779b549ef4]);
  (963456835133523300, [0x4e1c4f4e52ab59995c3e61c862cd6771677f6c136ce17075707f71e67b2c7bc48303836b852d8aa48bef8cd18d488fde; 0x902390bb9130931a94ee9686969497489bae9c9c]);
  (973992886699305800, [0x4f195367587558ee58ef59255b8f5b9c5be15c18653966f066ff68da72c27403753b756b78b37a3d7d617edc7f8e809d; 0x81e58885888b88ca898f899389c489c58dd18e448f388f938fb192d2950b96fe972798fd99719a579a8c]);
  (985771190264944200, [0x4e094e704f264f604f69502b505a50765225522b537157f95915593a596a5acc5bfc5c0e5ca95df46280632563ee63f4; 0x66916d3e6edf706978e8796d7d007da07eaa7eff81548155818f88618c8c8cb78e819149978b]);
  (999124329527396400, [0x4e3051f05341538c53ad53e45411548c571f5811587959e85a3c5b595b6b5e035e9a5f135fc65fd861b6636263db6478; 0x6574673567426c886c896da86f3270767089721072d773b073e073fe77bb7a7f7a8d7ac57cbc7e9c7f068054806f812b; 0x8131817e820d826f833683dc8471852588f98c508fed96dc97f39a30]);
  (1014539397510122300, [0x4e58538b58d35b5d5bf85c0a5f1b6076609f60b460e162fd6454658367d368516bb46bc66bd96c646d176d1e6daf6e10; 0x6e6f6e8f6f38706f71c873af74b0758f75d276627701776679cb7a747c737dd27eea7f817f8884ff8b6f8bd18f158f7b; 0x9a169a199a979a9b9e7f9f20]);
  (1032771553189517800, [0x4e134ede4f8b50bb532f535c55315546561856535751589e58c15b645c085efa616e62126320632b64876493652f654c; 0x6575679c6c476cfb6dcb6e296eab7009725b77f3780c7e087e6d81e383278426848284998651865a865b874987ec8b1d; 0x8c228f1f8f8d9003968597329802987699999b429f8d9f99]);
  (1055085908320938700, [0x4e014e074ef04f1f501a5049517b51bb51cd5219524752a9539f53bf57a3597659cb5f0a5f855f9261a762b162fe638c; 0x63a963ac65f16717674e677e6bb56cef6d8970eb710971d9756575bc77097e238005808c842c86c78cbb8d398eb28f1d; 0x8f89904d947d94bb96c59738985b98a0990a]);
  (1083854115566116900, [0x4e244f184f54512a516951cf52e45343536053e053ed5409552e5664567b5bf05c015cb85fb7610161276177624062c5; 0x62d0638863a564d465af65cf6795684368856b6a6bd46cc96e1b6ef470bc70df71497159758a76d876e4789779a77a9d; 0x7aa97b267bc77ca57d197db87eb67eb882b18352853d861686178721881f8aa88bf28c798cb68d2c8f4d8f998fe2916f; 0x91dd92809326932f948894f695199526966a971e9798980c98829a629a749b45]);
  (1124400626376933200, [0x4e084f104fd7516e517d519251a0523a529e52b152f553205348537053865427549b558956805708575a580559385948; 0x5bbe5c3c5ced5cf05e065e8461be61d261f6621a63a1640f65d7672b690d6b636b776de46e216ed170ad711a72487378; 0x74a875977642772977ff7926793a7a3f7ae07db27e5e7e737e7c7ed57ee77f347f517fe080b1829282b382d2838a866b; 0x87f2895f8a878aa08bda8cd38de18fa68fd18fd88ff98ffd908491c7926494a9963296c097ad9817988798e299659a37; 0x9a9a9b4f9f4a9f50]);
  (1193715344432927800, [0x4e344e5f4ed94f0d4faf4fd04fdd504e50b25112514c515151d152a353f95606565c569556db585758d1592e5a465ae9; 0x5bbd5be85bec5c485c635c975d175f705f815fb560286062606860a3611a62c96307641c67286740679d67d46bba6c5f; 0x6d536d826deb6e2f6e436e4a6e9c6f6d6f6e6fc372ac730e737574e275867626763e766e768b79fb7b147b467d307ec6; 0x7f577f858010809a80a581518180818a819d81e882e5837784dd85aa85cd8a168a858bab8bdb8c468cfa8d5a8d669002; 0x90529069923494c39650968f969996a8984f986b989c98a499a8])
].
(** prob_emit.go:36027-36029 probEmit, state 221 *)
Definition emit_221 : list (Z * list Z) := [
  (0, [0x67436b0a])
].
(** prob_emit.go:36030-36459 probEmit, state 222 *)
Definition emit_222 : list (Z * list Z) := [
  (186401253157753130, [0x4e2a500b]);
  (286567456597847060, [0x5e74]);
  (292378691977086700, [0x5143]);
  (329962215394744300, [0x6b21]);
  (330901886714528050, [0x79cd7a2e]);
  (352264489497984000, [0x591a]);
  (376262868661533960, [0x4e9b]);
  (391842178644248750, [0x5929]);
  (405169684420180300, [0x7c73]);
  (419056665057556300, [0x90e8]);
  (424283778314314650, [0x4f4d]);
  (429168635596875800, [0x70b99ede]);
  (431880639873918900, [0x5206]);
  (439846188980613900, [0x5bb6]);
  (440978567898922250, [0x6761689d]);
  (441272329990252600, [0x53f3]);
  (441332917692802800, [0x65706578]);
  (441940822300441000, [0x53ea]);
  (448158020861834700, [0x4e00]);
  (449389150009779700, [0x80a1]);
  (451619161288554000, [0x4e0b]);
  (457742816740847400, [0x91cf]);
  (465515260943040000, [0x88e191cc]);
  (472124340613999900, [0x53e5]);
  (473202103163382850, [0x58f08072]);
  (475368774343461200, [0x4e07842c]);
  (482910701921184950, [0x540d]);
  (484791552068630000, [0x4e09]);
  (492863814033185800, [0x4e8c]);
  (498713609338298400, [0x5c11]);
  (499888456674310400, [0x65e5]);
  (500841514431175800, [0x6279]);
  (501566269454860400, [0x54285678]);
  (510284658943739400, [0x6b65]);
  (516311542569173550, [0x4ef6]);
  (524479345670600200, [0x7247]);
  (527241339607090400, [0x5c816b72]);
  (527671535907142400, [0x96359663]);
  (528062362281402600, [0x5757584a]);
  (532594700848650700, [0x6bb5]);
  (534885127073007000, [0x5c465c4a]);
  (535527077257639600, [0x5ea7]);
  (542302713846042100, [0x5f205f35]);
  (543449953962265800, [0x56db]);
  (543859445080056500, [0x5b50]);
  (544488987110806300, [0x628a]);
  (547898408245103850, [0x5217]);
  (548528688914740500, [0x98059879]);
  (548680549232459500, [0x6708]);
  (550057770694582300, [0x773c]);
  (550676010685414000, [0x4efd]);
  (551506321631032200, [0x652f]);
  (551741094140067300, [0x53e3]);
  (552081186030979000, [0x4e45]);
  (554494776206430700, [0x8def]);
  (555764548771370050, [0x534a]);
  (557381686931422500, [0x573a5834]);
  (559560544076606400, [0x5c425c64]);
  (561125966679800100, [0x513f5152]);
  (561874602482619700, [0x5341]);
  (563008170790036300, [0x8f1b8f86]);
  (563125164076267600, [0x54689031]);
  (566397317989617500, [0x56de]);
  (567859421404040600, [0x9053]);
  (572442772243635900, [0x59048655]);
  (573119648317065400, [0x7c7b985e]);
  (573768579861040400, [0x5377]);
  (575873920780823700, [0x7ae0]);
  (576373838502526900, [0x5bf95c0d]);
  (581621056172271500, [0x5957]);
  (583289832693279000, [0x6839]);
  (585205669349585100, [0x4e245169]);
  (588356995920192800, [0x4ee3]);
  (590990233354616500, [0x65b9]);
  (592942657732085100, [0x5343]);
  (593337758996753100, [0x9418949f]);
  (595701177634861100, [0x767e]);
  (596148060361093450, [0x500d]);
  (597500817206144100, [0x5934982d]);
  (598496263003827300, [0x6210]);
  (599123486469272700, [0x5b97]);
  (600050589612066000, [0x8f2a8f6e]);
  (602103698512434500, [0x65a4]);
  (606566555282691800, [0x4e94]);
  (607520024481006100, [0x98469897]);
  (608482672299967600, [0x904d]);
  (609315239551360400, [0x9762]);
  (612957164859218800, [0x523b]);
  (613294921513242500, [0x53cc96d9]);
  (613925226630291100, [0x756a]);
  (615050207924962100, [0x4f599918]);
  (616437055313729800, [0x98039877]);
  (620405022446360100, [0x4ebf5104]);
  (623193943007960000, [0x62366237]);
  (626337833371672800, [0x591c]);
  (627724049081725500, [0x5b63]);
  (628227828484721200, [0x624b]);
  (631885379033376600, [0x516d]);
  (632879830048210600, [0x959395f4]);
  (633587797607016700, [0x514b]);
  (634003105234507400, [0x526f]);
  (636776037571527450, [0x676f]);
  (637389160277021100, [0x7bc7]);
  (640069283299695500, [0x516b]);
  (641340756245649100, [0x5ea6]);
  (641725372104396900, [0x68376a23]);
  (643083297917035000, [0x5e725e79]);
  (645588372880080300, [0x884c]);
  (645721973434354450, [0x958095e8]);
  (647067888771755000, [0x8d77]);
  (648569623478450300, [0x53f0]);
  (649190529233143500, [0x7fa4]);
  (654374508459213600, [0x74e6]);
  (655032646118143450, [0x6b3e]);
  (657258257269925800, [0x54c1]);
  (658162558835564200, [0x9813987f]);
  (658998747668277000, [0x671f]);
  (660614788993877950, [0x5708]);
  (663847234394859400, [0x67b6]);
  (664813425486033100, [0x5339]);
  (665707376989914000, [0x7b147b46]);
  (667852673785045300, [0x6240]);
  (668103195836739000, [0x51fa]);
  (669874646629970800, [0x7897]);
  (670215652928025000, [0x4ea9755d]);
  (671073291118007550, [0x5c01]);
  (675565459857158800, [0x672c]);
  (677383691765477800, [0x5c3a]);
  (678397992761983300, [0x8258]);
  (680268954727656100, [0x545854e1]);
  (681122444972639850, [0x9996]);
  (683532200130545850, [0x4e03]);
  (684315749682940750, [0x4e1d7d72]);
  (690187881799452900, [0x7d1a7ea7]);
  (691236109426803900, [0x961f968a]);
  (691552732382608950, [0x5e45]);
  (691658496538422400, [0x4e08]);
  (691870361024451000, [0x7dad7ef4]);
  (692189001761391800, [0x53f7865f]);
  (692295441366970450, [0x7d447ec48d9f]);
  (692615441640037500, [0x4e5d]);
  (694014065837511500, [0x7b49]);
  (698218224787003800, [0x7dda7ebf]);
  (698444469227400700, [0x679a]);
  (699126290050578450, [0x98019875]);
  (699240380194157600, [0x56e25718]);
  (703080293487611200, [0x68f5]);
  (703436800104060800, [0x6beb]);
  (711232954251032000, [0x938a9551]);
  (711619801928824000, [0x91cd]);
  (712528309151071150, [0x89d2]);
  (714237752487001100, [0x7bc08282]);
  (717609616086930900, [0x6392]);
  (718021987805317100, [0x4f1a6703]);
  (718990853515692050, [0x5bf8]);
  (721955079011559500, [0x8eab]);
  (722963006911029700, [0x664c]);
  (725009861996569250, [0x52195247]);
  (727856496155265000, [0x6876]);
  (728619276360153640, [0x67aa69cd]);
  (730474043595729800, [0x5806]);
  (730786543850043300, [0x813881c9]);
  (734777496473082500, [0x5177]);
  (738764735597820200, [0x5200]);
  (739786891004974000, [0x6587]);
  (740819602420559000, [0x76cf76de]);
  (741688417616322800, [0x6735]);
  (751010230499532800, [0x682a]);
  (753728844529948550, [0x679d]);
  (757132576508344700, [0x73ed]);
  (757745448702482000, [0x5e55]);
  (758982577882736700, [0x76d876e4]);
  (760867450438603400, [0x5f00958b]);
  (761716712443168700, [0x74f6]);
  (763654340339482650, [0x4efb]);
  (764747247392701700, [0x6d3e]);
  (764967269483661900, [0x4e32]);
  (765630255337528900, [0x8f098f7d]);
  (766969561071172700, [0x53d1767c]);
  (769703216487547800, [0x98029876]);
  (770398468419035900, [0x7ad9]);
  (770631297394995050, [0x906d]);
  (775161273317961400, [0x7c92]);
  (776635501491681700, [0x901a]);
  (777380846557139800, [0x5305]);
  (777880847598810400, [0x6247]);
  (780934519984818550, [0x4f195925]);
  (787336705861311600, [0x5c0a]);
  (788723690647726700, [0x7aef]);
  (790130183594467000, [0x53e0758a]);
  (790413871727987000, [0x77408457]);
  (792712823550456900, [0x6ef4]);
  (795962740289752400, [0x8eca8f66]);
  (797171214211259600, [0x8a318bb8]);
  (797780972198071400, [0x53f6751f8449]);
  (798702637708563800, [0x76ee]);
  (799944889708419550, [0x6298]);
  (800886811900068600, [0x66f2]);
  (802476670506848500, [0x4f8b]);
  (803442861598022200, [0x622a]);
  (810828767711834600, [0x68696a01]);
  (812232299523472900, [0x79d2]);
  (812941522354422100, [0x62f3]);
  (814014877918733000, [0x534754cd97ff]);
  (814375238669062900, [0x6253]);
  (816196782658197000, [0x6848]);
  (816934793387959200, [0x7e377f15]);
  (818804006689174500, [0x65f66642]);
  (819942538911687000, [0x684c]);
  (820708826186244000, [0x5e2d65979b25]);
  (821094183117843000, [0x675f]);
  (822259244839840500, [0x518a518c]);
  (825031699641326000, [0x76c6]);
  (827470844953742000, [0x51e05e7e]);
  (827883216672128200, [0x62db]);
  (830393808785235700, [0x5e2e5e6b7d197eb8]);
  (834723489360568200, [0x58eb62c564d4]);
  (836960719136021500, [0x5cf0]);
  (837869816306146700, [0x5e62]);
  (843505109961259900, [0x888b]);
  (848965523364745000, [0x8a188bb0]);
  (851027452085018500, [0x680b68df]);
  (852602287781832400, [0x76d2]);
  (857481304198775600, [0x5473]);
  (858038408703721200, [0x99d59a7e]);
  (861447829838018800, [0x68636a94]);
  (862610633637530800, [0x6e9c]);
  (864380591347470800, [0x5c40]);
  (864977608046121200, [0x6746687f]);
  (867401969207120500, [0x96c6]);
  (868017355764558300, [0x4e6162b979689109]);
  (869259607764414000, [0x8f298f88]);
  (871152408752965900, [0x7a0b]);
  (872434477595872200, [0x7bb1]);
  (874388937203169000, [0x5835]);
  (875049005606304300, [0x9910]);
  (878416327116963000, [0x5c3e]);
  (879103615045739200, [0x644a6524]);
  (884051620772076200, [0x58026b4c]);
  (887742076465621300, [0x8154]);
  (888496797029159600, [0x9320952d]);
  (892358280641937500, [0x6346]);
  (894748832727293000, [0x5e8a]);
  (900559595808021000, [0x67f1]);
  (901417970177160300, [0x80ce]);
  (909494105841606200, [0x670d]);
  (919305891437458400, [0x832c]);
  (921389300127742700, [0x534858c1]);
  (926796022254770200, [0x6c9390ce]);
  (933695309403465300, [0x8cab8d2f]);
  (934892928508137000, [0x4f0f]);
  (937332073820552800, [0x74e2]);
  (941106106618837600, [0x645e78c5]);
  (942396447102428400, [0x648765ec]);
  (947731045172957600, [0x4e11919c]);
  (951927465082860800, [0x52fa]);
  (964063550783287600, [0x93189524]);
  (974241820214281900, [0x53f891d1]);
  (976043670764549600, [0x7b50]);
  (983594426015364200, [0x7f50]);
  (989656888197007600, [0x6574753396f6]);
  (993912849638887200, [0x5e16]);
  (1005419782617366000, [0x64ae8f2f8f91]);
  (1010420824674832100, [0x9149]);
  (1015685198023374300, [0x929694e2]);
  (1018425095442185800, [0x6c6a]);
  (1021242183138855400, [0x620c]);
  (1024140936826180600, [0x536f]);
  (1030203399007824100, [0x4ea5]);
  (1040047406289149400, [0x7b2c8fb0]);
  (1043556538270276400, [0x6717]);
  (1050967335485648500, [0x5bc5]);
  (1063227567694881700, [0x5e275e40]);
  (1067672743951965200, [0x4e1653457bd37c0d]);
  (1072324745515454400, [0x5df3]);
  (1082333091371152600, [0x4e1b53e27c07]);
  (1087739813498180300, [0x5e105e33672a]);
  (1093455654882175100, [0x5b895fae7fbd]);
  (1099518117063818700, [0x62c9]);
  (1105971969177575800, [0x7d2295cb9615]);
  (1120282053541643000, [0x4e4b82af]);
  (1128286324308996700, [0x515c]);
  (1157054531554174800, [0x661f]);
  (1168832835119813200, [0x5146673a6a5f]);
  (1182185974382265500, [0x6846]);
  (1197601042364991200, [0x4f0d]);
  (1215833198044386700, [0x4fe9500659da727976fe]);
  (1238147553175807800, [0x4f0a]);
  (1266915760420985700, [0x58f9]);
  (1307462271231802100, [0x4f7057a75eff6208]);
  (1376776989287796700, [0x4ee853c1634c67d273969f4a9f50])
].
(** prob_emit.go:36460-36460 probEmit, state 223 *)
Definition emit_223 : list (Z * list Z) := [].
(** prob_emit.go:36461-36545 probEmit, state 224 *)
Definition emit_224 : list (Z * list Z) := [
  (68359600957560230, [0x5ea6]);
  (225716715013111200, [0x4ef6]);
  (282041965372175300, [0x573a5834]);
  (319450316108874900, [0x9762]);
  (334816615497608100, [0x4efd]);
  (348576888292066660, [0x6761689d]);
  (357873194989888500, [0x520656de]);
  (365306035630898300, [0x70b99ede]);
  (385975050411989560, [0x811a8173]);
  (418677979994082600, [0x6b21]);
  (436175994987641300, [0x4f1a6703]);
  (469322904910701850, [0x4e00]);
  (469760542370681700, [0x6839]);
  (490659522758293300, [0x4f195925]);
  (500895724024450300, [0x8f1b8f86]);
  (517819116228308900, [0x671d]);
  (518530863005195400, [0x5e2e5e6b]);
  (520697012683313250, [0x8272]);
  (522167627422282900, [0x65f66642]);
  (528276396620266600, [0x7b49]);
  (535626642819559300, [0x9053]);
  (539956323394891800, [0x4f4d]);
  (569613425381794400, [0x9418949f]);
  (578314563080757400, [0x7d007eaa]);
  (619512541993693200, [0x4ee3]);
  (646338940653161100, [0x513f5152]);
  (651603314001703400, [0x4e1d7d72]);
  (675965522267478400, [0x888b]);
  (699145683673210800, [0x53e3661f]);
  (718251207349481700, [0x4ed8]);
  (723657929476509300, [0x4e585e74]);
  (729373770860504140, [0x6302639b884c]);
  (735436233042147700, [0x4f8b521d]);
  (748789372304599900, [0x65b9]);
  (764204440287325800, [0x6708]);
  (772905577986288700, [0x7279]);
  (782436595966721300, [0x6469]);
  (792972647532503850, [0x4ebf510453f0]);
  (804750951098142200, [0x5ba4]);
  (818104090360594500, [0x4f0f6c60]);
  (833519158343320200, [0x7d1a7ea78def]);
  (851751314022715700, [0x65a48239]);
  (874065669154136800, [0x8ef88f74]);
  (902833876399314800, [0x4e094e0b53d1767c]);
  (943380387210131300, [0x671f96469678]);
  (1012695105266125900, [0x5343534753615b89672c68376a23767e])
].
(** prob_emit.go:36546-40895 probEmit, state 225 *)
Definition emit_225 : list (Z * list Z) := [
  (395024612446078560, [0x5b50]);
  (413460941342862400, [0x4eba]);
  (415109232806484700, [0x4e1a696d]);
  (442983753387390400, [0x573a5834]);
  (445560408786604000, [0x53f8]);
  (445751301351758300, [0x91d1]);
  (457879436552430000, [0x8005]);
  (463464944284131600, [0x5bb6]);
  (463808364215493450, [0x5ea6]);
  (465398787145212600, [0x529b]);
  (469682154355998600, [0x6027]);
  (474800674279194600, [0x4f1a6703]);
  (479800475943409600, [0x4f539ad4]);
  (481975801896559100, [0x91cf]);
  (482139980188758500, [0x5b665b78]);
  (483002674252310800, [0x54c1]);
  (485096982954516300, [0x6d4e6fdf]);
  (493211071527580900, [0x7269]);
  (500195289665217100, [0x5730]);
  (502069945007228500, [0x9762]);
  (507115598071214000, [0x533a5340]);
  (510906018307118500, [0x959395f4]);
  (513998775819144100, [0x673a6a5f]);
  (514272091848327600, [0x56fd570b]);
  (522600304424709350, [0x6cd5]);
  (524321771291460300, [0x9577957f]);
  (525745762976965700, [0x70b99ede]);
  (527090819160914700, [0x7387]);
  (528441288979045500, [0x545854e1]);
  (533645879402073000, [0x52bf52e2]);
  (534049688850955300, [0x984c9898]);
  (534735524964033300, [0x519b8ecd]);
  (536015462650227400, [0x5e02]);
  (537716733911094700, [0x6c11]);
  (538262748235433200, [0x65706578]);
  (538679951298073500, [0x672c]);
  (541588222445945360, [0x5f0f]);
  (543637315792156100, [0x678469cb]);
  (543715581900907450, [0x683c]);
  (544848240890653650, [0x503c]);
  (544997592458412800, [0x60c5]);
  (546621244363176800, [0x52a152d9]);
  (547349334950080800, [0x65b9]);
  (547737320418010900, [0x4f4d]);
  (549400074073025100, [0x7a0b]);
  (551487240794423600, [0x4e497fa9]);
  (551695764263700300, [0x672f8853]);
  (552550680294638100, [0x5fc3]);
  (553612250857125000, [0x6e90]);
  (555827579196773400, [0x662f]);
  (556001086988613800, [0x8eca8f66]);
  (557524481576796600, [0x51b56cc1]);
  (557680182869432200, [0x90e8]);
  (559289376886478800, [0x7406]);
  (559440804027910500, [0x754c]);
  (559733743690692800, [0x5238]);
  (559910628443361100, [0x4ef6]);
  (560155244359008500, [0x751f]);
  (560172993422792000, [0x5934982d]);
  (560660547547898700, [0x5206]);
  (560664115090397400, [0x6c146c23]);
  (561390974369442200, [0x7d717edf]);
  (561596021476196300, [0x7b56]);
  (562725895160525800, [0x4e8b]);
  (562951949874501300, [0x8272]);
  (563471621675304200, [0x58eb]);
  (563761908307339800, [0x7cfb]);
  (564470947800594800, [0x4ea77522]);
  (564515430138133740, [0x8cea8d28]);
  (564530261982129900, [0x9645969b]);
  (564637858690404800, [0x4ef750f9]);
  (564782740488506450, [0x5e9c]);
  (565412998592984400, [0x884c]);
  (567507355566033500, [0x7528]);
  (568193536933189100, [0x5668]);
  (571513814555985700, [0x7dda7ebf]);
  (571537676158803200, [0x4efd]);
  (571908260950630900, [0x6599]);
  (572256184758440960, [0x5019]);
  (572701852289900700, [0x961f968a]);
  (573068706826427600, [0x958095e8]);
  (573469346766625800, [0x53e3]);
  (574181499042894750, [0x8b708bae]);
  (574414556492756740, [0x8def]);
  (575306813805123100, [0x9053]);
  (577044104150759700, [0x5e015e63]);
  (579378344185915500, [0x677f]);
  (587195660852980000, [0x80a1]);
  (587218921535553200, [0x671f]);
  (588097472912879600, [0x4ee3]);
  (588681196266881000, [0x53f2]);
  (589130720292591400, [0x7d20]);
  (589149692024767400, [0x606f76ee]);
  (591108801503749100, [0x67436b0a]);
  (592668819490992950, [0x7968]);
  (593339268144848200, [0x7403]);
  (594338456235611600, [0x679c]);
  (597340710120358300, [0x9662]);
  (597459190494810600, [0x8c61]);
  (597665578267364300, [0x513f5152]);
  (598386105967957900, [0x6c34]);
  (598547509694456100, [0x80fd]);
  (599437288410996800, [0x7d007eaa]);
  (599964409973104700, [0x966996aa]);
  (602257830995469200, [0x56e25718]);
  (602311923061482300, [0x65cf]);
  (603099563951364400, [0x57df]);
  (604196246544538500, [0x8ad68bba]);
  (604212788685680700, [0x7c7b985e]);
  (605355277958204600, [0x578b]);
  (606810482444615800, [0x636e64da]);
  (611224792757393500, [0x6001614b]);
  (612949024836159500, [0x878d]);
  (613867960025234400, [0x6d41]);
  (614636162803198500, [0x5e085e2b]);
  (615416480731461000, [0x583162a5]);
  (615725370826941500, [0x76ca]);
  (617077121561865000, [0x5236]);
  (618110983131467600, [0x6bb5]);
  (618963731076075100, [0x984d989d]);
  (619046848628253250, [0x544a]);
  (619952820706651700, [0x5e73]);
  (621043103425839600, [0x5c40]);
  (621474702317107300, [0x6cb9]);
  (622621564346964700, [0x5175]);
  (622867142408194200, [0x52125283]);
  (623320053799159800, [0x8868]);
  (623607515975251600, [0x79ef7a4d]);
  (623667787197568300, [0x6613]);
  (625179695046734000, [0x5e265e36]);
  (625650059593682250, [0x5e45]);
  (626714812912310100, [0x4e6666f8]);
  (627567888793511500, [0x653f]);
  (628463438051711700, [0x5883]);
  (630207421002195700, [0x5546]);
  (630243185102573400, [0x5de5]);
  (630286118913608550, [0x5f8b]);
  (630422197717060100, [0x62366237]);
  (631184791340809400, [0x5b9a]);
  (632033329630079200, [0x52a852d5]);
  (632801017553136400, [0x77f3]);
  (634982436594913100, [0x5149]);
  (635886670018445400, [0x68076a19]);
  (636516916229288100, [0x5316]);
  (637666089988169500, [0x7e3e7ee9]);
  (637812598862739400, [0x5229]);
  (639172212705675200, [0x6b3e]);
  (639650513692010800, [0x5f62]);
  (640091632957917600, [0x5165]);
  (640677541205696200, [0x56e0]);
  (641059433626228600, [0x6750]);
  (642149450028818900, [0x5757584a]);
  (642553197347307300, [0x76d876e4]);
  (642788119890441840, [0x6848]);
  (642869255797529800, [0x7840790e]);
  (644020335897569750, [0x623f]);
  (645334458697361000, [0x4efb]);
  (646649220340170500, [0x8aaa8bf4]);
  (646834843073185200, [0x8a718bdd]);
  (648049862905983700, [0x5411]);
  (648169613155517700, [0x4eec5011]);
  (648736089651033100, [0x4eb289aa]);
  (649037801013046240, [0x539f]);
  (649141454818647100, [0x6a21]);
  (650507584396615500, [0x6240]);
  (650964206194573600, [0x50995907]);
  (651396400913634200, [0x8ca88d27]);
  (652328870704596600, [0x7247]);
  (653405307363312400, [0x897f]);
  (653721463175185300, [0x661f]);
  (654084012289786450, [0x89c089c2]);
  (655253082139416100, [0x53f7865f]);
  (655861266837523500, [0x5bfc5c0e]);
  (656445277767405300, [0x4f8b]);
  (656482473229987700, [0x97f3]);
  (657238673444624300, [0x7d1a7ea7]);
  (658644821277205600, [0x4e0b]);
  (659782228999191300, [0x836f85e5]);
  (659965035611893750, [0x6cbb]);
  (660225389647393000, [0x5b98]);
  (660428356904042500, [0x58f08072]);
  (660622042806157300, [0x515a9ee8]);
  (660825817560091900, [0x7565]);
  (660932722667702900, [0x5bb9]);
  (661195611675539750, [0x5c425c64]);
  (661400559778312900, [0x4e0a]);
  (661410329696741900, [0x6da66f64]);
  (661654888390409700, [0x75c5]);
  (661890228761825800, [0x60f3]);
  (662332990345081200, [0x59735b57]);
  (662451391937601100, [0x82b1]);
  (662629257597140950, [0x79cd7a2e]);
  (662807440182394900, [0x6797]);
  (663323980518337200, [0x53f0]);
  (663723142808629250, [0x5e74]);
  (663823182832979000, [0x4ee4]);
  (664224346744764650, [0x624b]);
  (664274605578812400, [0x6c42]);
  (665906591523263200, [0x666f]);
  (667513713782252400, [0x4e3b]);
  (667732043130298900, [0x6587]);
  (667888285024486100, [0x5c5e5c6c]);
  (668117882286690200, [0x52195247]);
  (668253801592470500, [0x5f395f48]);
  (670208330031632300, [0x738b]);
  (670454017278007500, [0x5ba4]);
  (670582441953192600, [0x7d937ecf]);
  (671453649399559700, [0x4f17773e]);
  (671615820363259700, [0x8a00]);
  (671745746756591100, [0x5fd7]);
  (672082173358565100, [0x571f]);
  (673197182724074700, [0x99ac9a6c]);
  (673252161009037500, [0x4e1c6771]);
  (673351198156059500, [0x65bd]);
  (674113759181221450, [0x4e89722d]);
  (675848262465077600, [0x98a898ce]);
  (675870840925322550, [0x51c66e96]);
  (677981707138338100, [0x8cc78d44]);
  (678201043445607000, [0x610f]);
  (679106552302866800, [0x5c71]);
  (679714812454051000, [0x5f1f]);
  (679761755301996800, [0x592e]);
  (680303187886434400, [0x65e5]);
  (680918793003281700, [0x53825ee0]);
  (681514316440275200, [0x8eab]);
  (682269761006680600, [0x53cb]);
  (682861300125209200, [0x592b]);
  (682970331573408200, [0x8a188bb0]);
  (683030956006910900, [0x775b795e]);
  (683055216074958100, [0x7bc08282]);
  (683249508789387900, [0x4f5c56f4570d]);
  (683407650054630440, [0x5e2d]);
  (683663638492099300, [0x5e1d]);
  (684165322016024700, [0x5ff5]);
  (685362349945173400, [0x901a]);
  (686247697707150800, [0x57ce]);
  (686460850568244200, [0x7f6e]);
  (688182630031187100, [0x4e3a70ba]);
  (691361207281396400, [0x7237723a]);
  (691466720348426200, [0x6821]);
  (691982696885110650, [0x7d047ea6]);
  (692049040681082200, [0x72b672c0]);
  (692128711379759300, [0x5a18]);
  (692942320402710700, [0x7a7a]);
  (693681620765755800, [0x5b9e5be6]);
  (693722103864615100, [0x7e547ec7]);
  (694236313387352000, [0x547d]);
  (694385658333988700, [0x6307]);
  (695629778557817300, [0x59d4]);
  (695671058228166100, [0x8b588bc6]);
  (696375432385483700, [0x540d]);
  (696514128662918600, [0x5177]);
  (697771128453885600, [0x7ad9]);
  (698448045437195400, [0x6bcd]);
  (699643789221677300, [0x98df]);
  (700203853872262200, [0x89ba89c9]);
  (702431830994901700, [0x54e5]);
  (702844993748786900, [0x56ed5712]);
  (702963354466850900, [0x5143]);
  (703795825455454100, [0x7db27f51]);
  (703945212994440000, [0x80de]);
  (705012330658125100, [0x52675287]);
  (705375637143113200, [0x7684]);
  (705588177074344500, [0x68b0]);
  (705938333479918900, [0x660e]);
  (706045146643351100, [0x81e3]);
  (707832008726383700, [0x6559]);
  (707863098420400600, [0x724c]);
  (708627830980675100, [0x901f]);
  (709224941491432050, [0x5f71]);
  (709509032591592400, [0x7b517bc9]);
  (710127346095376600, [0x7ba1]);
  (711021920751222400, [0x65f66642]);
  (711746619953182000, [0x7aef]);
  (713129992978619300, [0x6d3e]);
  (713261183551715400, [0x5ead]);
  (714184368479602400, [0x517395dc]);
  (715116155587291500, [0x805e95fb]);
  (716107343878584300, [0x5e8f]);
  (716955093954028900, [0x6cb3]);
  (717074354552541200, [0x8cb88d37]);
  (717467215250837100, [0x6751]);
  (717501450102249900, [0x5c065c07]);
  (719280579852149900, [0x59048655]);
  (719997679558241300, [0x6db2]);
  (720296528334761100, [0x5225522b943594c1]);
  (720613932939096400, [0x753b756b]);
  (721322904359633100, [0x88e191cc]);
  (721768577617144900, [0x98189886]);
  (721911613579311100, [0x8de18ff999289986]);
  (722359924201947500, [0x59d3]);
  (722413856787524460, [0x79d1]);
  (722467818476035900, [0x8cbb8d39]);
  (722990954872487550, [0x898b89c1]);
  (723680612778393600, [0x7701]);
  (724246772632385750, [0x611f]);
  (724338389679563700, [0x5f815fb5]);
  (725629920547231900, [0x5f845f91]);
  (726863120032049100, [0x6280]);
  (727599041836250100, [0x753596fb]);
  (728168843947713900, [0x5ef7]);
  (728245063463599000, [0x6e296eab]);
  (728359501774772100, [0x6388]);
  (728627034898225000, [0x601d]);
  (728780232936613450, [0x52425291]);
  (729376102071140850, [0x76ae]);
  (729723726986676900, [0x6728]);
  (729897993658720000, [0x89d2]);
  (729956150101184950, [0x5ca9]);
  (730871711186505800, [0x6d0b]);
  (731756237838002500, [0x91cd]);
  (731874768077087300, [0x866b87f2]);
  (732588915131276300, [0x7dd27eea]);
  (733529016064379300, [0x9a579a8c]);
  (733770464873831100, [0x70ad]);
  (733931755231377550, [0x53f68449]);
  (735928968550069000, [0x56fe5716]);
  (735970146232347400, [0x96469678]);
  (736052552499886750, [0x9650]);
  (736984332716884800, [0x9633967d]);
  (737422152659449000, [0x5c9b5cf6]);
  (737568519648465100, [0x5802]);
  (737610378167284600, [0x77ff7926]);
  (737736058954670200, [0x76f8]);
  (737987895394169800, [0x732e737b]);
  (738198244651368600, [0x62d4]);
  (738219303933324960, [0x6d77]);
  (738704895513496500, [0x9178]);
  (739256679595999260, [0x62186230]);
  (739491046380596000, [0x68116a39]);
  (739940004911299300, [0x7a057a0e]);
  (739961434248143300, [0x83dc]);
  (740908900422848200, [0x5dee]);
  (741494776027302100, [0x538b58d3]);
  (741603649200821700, [0x79f07a31]);
  (741625438066797500, [0x670d]);
  (741930981735318700, [0x59875a66]);
  (742369098536875000, [0x8a9e8bed]);
  (742522894019238100, [0x624d]);
  (742919457658572800, [0x5cb8827a85dd]);
  (743228986979325600, [0x4e506a02]);
  (743472862502037000, [0x8fd0904b]);
  (743695084815708800, [0x8349]);
  (744431942007033100, [0x8c37]);
  (744476775004869800, [0x8239]);
  (744566501345568800, [0x5e9461c9]);
  (744791170053866700, [0x7ae0]);
  (745332443364541700, [0x5f205f35]);
  (745649544423005750, [0x5e97]);
  (745944898494353100, [0x5c0f]);
  (746675662193919900, [0x5bab5bae]);
  (746790327955824300, [0x540e5f8c]);
  (747227260926445800, [0x5929]);
  (747805096811370700, [0x5cf0]);
  (747921065744697100, [0x5ba2]);
  (748037169322118800, [0x8f2f8f91]);
  (748246496064445200, [0x59885abd]);
  (748877118264116400, [0x59d0]);
  (749252705560097000, [0x780178bc]);
  (749323285494799700, [0x70ae]);
  (749370366474953700, [0x9375952e]);
  (749700555454188500, [0x7236]);
  (750292904064526200, [0x8089]);
  (750602317616150200, [0x5740]);
  (751296017324189100, [0x8abf8c03]);
  (751825501112349000, [0x66f2]);
  (751970393675732000, [0x77e5]);
  (753063831857040500, [0x7d617edc]);
  (753578223683245000, [0x697c6a13]);
  (754243496557021700, [0x50cf]);
  (755964022728634300, [0x7d447ec4]);
  (756140234227974300, [0x514b]);
  (759262289231051300, [0x79bb96e2]);
  (759496511849516300, [0x6e38904a]);
  (759652965597205700, [0x5473]);
  (759861952089151700, [0x592a]);
  (761231115130946000, [0x81088109]);
  (761363758737076700, [0x575b58c7]);
  (761390308584571100, [0x96ea]);
  (761736099592778800, [0x5931]);
  (761896099626912100, [0x76d176e3]);
  (762002908715838000, [0x843d]);
  (762163336557732400, [0x5f79]);
  (762297223309557400, [0x503a50b5]);
  (762592406671618600, [0x9152]);
  (762673062678141900, [0x88c588dd]);
  (763131346267665200, [0x8a0a8baf]);
  (763429005802823600, [0x9b5a9c7c]);
  (763727553995803400, [0x540c]);
  (763918004332242700, [0x81118166]);
  (764382042287893000, [0x7de37f18]);
  (765040842364847200, [0x793e]);
  (765565488052593200, [0x8247]);
  (765870493141393300, [0x7fa4]);
  (766791130136290800, [0x535555ae]);
  (767635492034307800, [0x8b498bc1]);
  (767805223333895800, [0x706b]);
  (768259253625774100, [0x67aa69cd]);
  (768658228221701100, [0x53866b77]);
  (768801105799943200, [0x516c]);
  (769662684937778500, [0x8c46]);
  (769922612881957200, [0x93ae9547]);
  (770241222854594300, [0x9047]);
  (770793951534513800, [0x671d]);
  (771056840542350750, [0x521b5275]);
  (771203189170842200, [0x53d1767c]);
  (771408437740184200, [0x7c73]);
  (771967673929086300, [0x5c4b]);
  (773484431631143500, [0x92fc94a2]);
  (774629712383422700, [0x7c4d]);
  (774690355199107700, [0x6708]);
  (774720690403344600, [0x4fe1]);
  (775054986414409700, [0x5e95]);
  (775390403713172800, [0x67b6]);
  (775910998978657500, [0x8863]);
  (776033886858945700, [0x93e1955c]);
  (776064632439510800, [0x75977642]);
  (776557851688442650, [0x53855ef3]);
  (776991423132588800, [0x5f559304]);
  (777146726782378200, [0x5a46]);
  (777864246628785100, [0x888b]);
  (777989559928391800, [0x6ce2]);
  (778052275515270250, [0x5e03]);
  (778083648064547200, [0x5178]);
  (778115030459281400, [0x5b89]);
  (778650043537188800, [0x58e4]);
  (779187934408503850, [0x7763]);
  (779952269339760650, [0x5bcc]);
  (780948261508960600, [0x4e619109]);
  (781466229646614100, [0x523b]);
  (781791327462198600, [0x6f6e]);
  (781823895448156600, [0x4e166bdb]);
  (782019526420232700, [0x7530]);
  (782707264516583750, [0x652f]);
  (783764426658107500, [0x819c]);
  (784130422741256200, [0x5e935eab6545]);
  (785607951299471600, [0x80a4819a]);
  (785845038624753200, [0x9ad8]);
  (786491409305169500, [0x532f6c47]);
  (786833289980048100, [0x7531]);
  (787038980830765800, [0x98059879]);
  (787831405304646200, [0x7dad7ef4]);
  (787900609459657400, [0x83cc]);
  (787935229505009200, [0x590f]);
  (788734816591396800, [0x8c8c96c6]);
  (789014439283203600, [0x6c60]);
  (789259752180011200, [0x5bc6]);
  (789893334024919800, [0x75c7]);
  (789928650995090900, [0x82308266]);
  (789999322376124100, [0x706f71c8]);
  (790070043736921800, [0x5c1a]);
  (790176219644967600, [0x9ea59ea6]);
  (790886954690832800, [0x517b990a]);
  (790958306816585650, [0x8a5e8bcd]);
  (791136910186084800, [0x773c]);
  (791315833118054500, [0x5f92]);
  (791530964072305700, [0x5fb7]);
  (791638703353691750, [0x5144]);
  (791674642257942000, [0x98029876]);
  (791818527174851900, [0x5976]);
  (792070825019983000, [0x71df8425]);
  (792686211577420800, [0x9675]);
  (793049980621703300, [0x90fd]);
  (793561490688380300, [0x6761689d]);
  (793818230238904800, [0x5b58]);
  (793965235043033800, [0x8fb9908a]);
  (794518435789995350, [0x59b9]);
  (794555424878636100, [0x58c1]);
  (794888943809249950, [0x96e89aa8]);
  (794963210429819000, [0x60ef6163]);
  (795671507892389000, [0x4f7f]);
  (796121452408511900, [0x708e]);
  (796838030998053800, [0x898f89c4]);
  (796913759892244700, [0x932294b1]);
  (796989546178554900, [0x6f20]);
  (797293266989099800, [0x554f95ee]);
  (797407400537726800, [0x7cd6]);
  (797636059173940200, [0x4e9468376a23]);
  (797712395055509700, [0x65d7]);
  (797827008248571900, [0x7d197eb8]);
  (798133287201626500, [0x5df4]);
  (798171638112930600, [0x76df]);
  (798363613599035700, [0x6d1e]);
  (798787261450069900, [0x5ddd]);
  (798980423573100600, [0x8f1b8f86]);
  (799601061717354300, [0x6548]);
  (799678913025295700, [0x5305]);
  (799873806869873800, [0x6d32]);
  (800854014678847500, [0x8a088ba1]);
  (801130203451768400, [0x80f681a0]);
  (801526086787488800, [0x9014]);
  (802122865960679500, [0x810f81df]);
  (802162778154384300, [0x7ae5]);
  (802442610437728600, [0x4e2d]);
  (802522706557349000, [0x67816975]);
  (803488897648522700, [0x8f2a8f6e]);
  (803894248831841000, [0x5b54]);
  (804056850493682900, [0x82d7]);
  (804342041153469500, [0x9700]);
  (804546247881569200, [0x899689c6]);
  (804709914039215800, [0x5e8a]);
  (804955916623302000, [0x6b4c]);
  (805284864288342000, [0x95a39601]);
  (805532287094977100, [0x90a6]);
  (806070479244793800, [0x5f027570]);
  (806195089852818500, [0x5f69]);
  (806444777872677100, [0x767d]);
  (807155631796406700, [0x6c496f22]);
  (807491907859406800, [0x8da3]);
  (807660470899740300, [0x8aa48bef9f619f84]);
  (808295125029133000, [0x6bd2]);
  (808380050724258600, [0x7bb1]);
  (809490698621148000, [0x620f6232]);
  (810483583963206000, [0x51fa]);
  (810787733665410700, [0x96c4]);
  (811311295070805200, [0x4e9196f2]);
  (811355049173450400, [0x5893]);
  (811574107311432200, [0x6cea6dda]);
  (811881597121026600, [0x68656a4b]);
  (812588001824527200, [0x85cf]);
  (813299432126188100, [0x5200]);
  (813657054322265000, [0x6ce5]);
  (813746660063027600, [0x5b9d5bf6]);
  (814060913969233500, [0x58f36bbc]);
  (814421274719563500, [0x6746687f]);
  (814692400055101000, [0x7b97]);
  (814782938766582300, [0x79cb]);
  (815145915571640000, [0x677e]);
  (815921643851286400, [0x5e055e25]);
  (816242818708697500, [0x6b65]);
  (816288785154002400, [0x6cab]);
  (816380781480637900, [0x8a898b7d]);
  (816565028423593400, [0x5b85]);
  (817027136454800000, [0x7483]);
  (817305429769844600, [0x88ab]);
  (817351887378113400, [0x73e0]);
  (817398366579508000, [0x91dd9488]);
  (817911068704691100, [0x58997246]);
  (818379453635933800, [0x5b69]);
  (819750309421780800, [0x76d09e7d]);
  (819797917135129400, [0x70df7159]);
  (820084040363232700, [0x7c89]);
  (820370984606028000, [0x5e725e79]);
  (820995536239801000, [0x6e56]);
  (821043740627333600, [0x5854]);
  (821915416848775300, [0x8fbe9054]);
  (821964066813247400, [0x5dde]);
  (822061437804387500, [0x5217]);
  (822451872658590600, [0x9020]);
  (822598679633819800, [0x9632]);
  (823089598636443600, [0x8a698bd7]);
  (823138823348242400, [0x793c79ae8154]);
  (823188072302697500, [0x75db]);
  (823237345523699400, [0x4fd7]);
  (824576983518764300, [0x5e55]);
  (824726946056240900, [0x8ddd]);
  (825480150721799000, [0x520a]);
  (825581008017287500, [0x7bad]);
  (825631474836425700, [0x6bbf]);
  (826137548791008800, [0x5c31]);
  (826289871745060900, [0x4f0d]);
  (826391549435569700, [0x63d0]);
  (826595215493750000, [0x57fa]);
  (827208714350501700, [0x548c]);
  (827826000261209700, [0x57085974]);
  (828239651316387800, [0x6cfd6fa4]);
  (828343331989231800, [0x5761]);
  (828811229905510800, [0x4ea4]);
  (829438518946238900, [0x5bb3]);
  (829753645257437900, [0x591c]);
  (829806262990827600, [0x59d1]);
  (829964282512779400, [0x671b]);
  (830017011224784000, [0x6735]);
  (830333968700912100, [0x6212]);
  (830917679564934300, [0x98ef996d]);
  (831237509261872000, [0x9f8d9f99]);
  (831826533722579600, [0x67f1]);
  (832365037985668400, [0x5408]);
  (832743723858818000, [0x725b96be96e3]);
  (833015094445977800, [0x4e1d7d72]);
  (833943302038414600, [0x811a8173]);
  (835046457185949200, [0x7ffc80ce]);
  (835212985117855300, [0x70759748]);
  (835491149414043000, [0x9707]);
  (835881883932934900, [0x8840]);
  (836049810084907000, [0x6676]);
  (837573971681768500, [0x723893c894fe]);
  (837801762213068000, [0x8cbc8d34]);
  (837858791014157400, [0x91ce]);
  (838144423884732800, [0x8001]);
  (838545685529461900, [0x788d7919]);
  (838833289984251400, [0x6cc9]);
  (839353071691613000, [0x7d057ea2]);
  (839410992341943500, [0x7d0b7eb9]);
  (839584955853487900, [0x53d88b8a]);
  (839817378967995900, [0x6b21]);
  (840342314556610300, [0x8102]);
  (840987667339087600, [0x4eea5100]);
  (841105452982858300, [0x8896]);
  (841341441292967200, [0x9999]);
  (841993295452991600, [0x928094f6]);
  (842052766165419300, [0x8857]);
  (842112272266550300, [0x4e955ea7]);
  (842410335080364100, [0x90ce]);
  (842709288965200700, [0x65367cbe]);
  (843009139264826500, [0x98fe9970]);
  (843551146011760300, [0x804c8077]);
  (843914122816818200, [0x54cd97ff]);
  (843974747250320900, [0x8cca8d3c]);
  (844217613186333600, [0x7167]);
  (844339267702554000, [0x817a]);
  (844644053064979300, [0x6839]);
  (844888551964286100, [0x533b91ab]);
  (845256424850032300, [0x79df]);
  (845317868784377000, [0x7199]);
  (845934393548570200, [0x594f]);
  (846058155940605200, [0x9f20]);
  (846182071693760000, [0x65e8]);
  (846306141188583400, [0x8b5c8c31]);
  (846554742932529600, [0x53bf7e23]);
  (846991288683493500, [0x6f1496f79996]);
  (847178964684779600, [0x7434]);
  (847241601705305500, [0x88c1]);
  (847492542865848000, [0x5361]);
  (848312478080716700, [0x96b696b8]);
  (848375829365698800, [0x8b008c0b]);
  (848502652464498500, [0x5e995edf]);
  (848566124380307400, [0x8336]);
  (849203069208855500, [0x9ebb]);
  (849330946464133200, [0x74f7]);
  (849394946466317800, [0x5047]);
  (849523069481922600, [0x7a3b]);
  (849715562322881000, [0x5956734e]);
  (849779809032447100, [0x8457]);
  (849908426413521500, [0x51675185]);
  (850037209431964400, [0x4f3450da]);
  (850295274091313600, [0x4f19592559bb]);
  (850813409965513400, [0x7b147b46]);
  (851008405152421300, [0x6cca]);
  (851268991619099500, [0x5c385c4d]);
  (851464878067632600, [0x793a]);
  (851923444216764700, [0x6c99]);
  (852384122886049200, [0x5ce15cfd6881]);
  (852450107711934000, [0x74dc]);
  (852516136106541500, [0x92d2950b969c]);
  (853378496342934600, [0x5b63]);
  (854719898079501000, [0x8f148f85]);
  (854990351253143000, [0x73ed]);
  (855329449577398600, [0x6e2f]);
  (856697459967806700, [0x540f]);
  (856835295964818800, [0x70897210]);
  (857180719451627700, [0x7a748cfd8d5b]);
  (857249947561003700, [0x9f529f7f]);
  (857388547721791400, [0x59fb]);
  (857527340249276200, [0x5c45]);
  (858434217758597200, [0x9ce59e1f]);
  (858785218469962300, [0x96de9e21]);
  (858855566696570700, [0x6c1b]);
  (858925964446750200, [0x536b679d885b]);
  (859208052080914300, [0x86cb]);
  (859278698498547100, [0x5e84838a]);
  (859490937700962100, [0x5be8]);
  (860630551174049000, [0x7687]);
  (861061276893807000, [0x7cae7ce7]);
  (861421637644137000, [0x62c564d4]);
  (861493865888519400, [0x8236]);
  (861566146339805000, [0x77e9]);
  (862073577656952000, [0x7624]);
  (862729795833886000, [0x5957]);
  (862802975493207400, [0x62109699]);
  (862876208744374800, [0x7d22]);
  (863022836336627600, [0x625865af]);
  (863096230835335000, [0x613f9858]);
  (863464013522794000, [0x5728]);
  (864277928485813600, [0x519c8fb2]);
  (864352250302686900, [0x56ca]);
  (864724690211785200, [0x9187]);
  (864799344937163600, [0x5c09]);
  (864948821796086500, [0x5085]);
  (865473757384701000, [0x7c92]);
  (865548973634956400, [0x5b978377]);
  (865925905856585500, [0x5320]);
  (866077077465117600, [0x4ecb]);
  (866531968317754700, [0x529f96fe9727]);
  (867218208143858700, [0x820d]);
  (867601497229429300, [0x9b42]);
  (867678331655030300, [0x75327b52]);
  (867986261074636500, [0x6e7e7063]);
  (868217832000196300, [0x80a2]);
  (868527429770709000, [0x72af]);
  (868760258746668200, [0x8180]);
  (868993631081290200, [0x7956]);
  (869071543044717200, [0x82318259]);
  (869149515758219200, [0x5a01]);
  (869540293903026800, [0x6838]);
  (869854019650540200, [0x6bd4]);
  (870089961561017200, [0x84c4]);
  (870880479511728500, [0x80a08178]);
  (871278094349692400, [0x842885a9]);
  (871357807386994300, [0x6d466f3f]);
  (871757328493723100, [0x92ea94fa]);
  (871917584938277200, [0x6905]);
  (872641934181826800, [0x8b66]);
  (872722742267032100, [0x81c2]);
  (873127765096934300, [0x80b2]);
  (873452968635572100, [0x6df1]);
  (873942765533126800, [0x4f2450b75eca]);
  (874270634679296600, [0x517d7378]);
  (874847005150971700, [0x7f8a]);
  (874929615647202200, [0x72f17344]);
  (875012294444801600, [0x5c7f5dbc]);
  (875592967996765600, [0x621a]);
  (875842864003529400, [0x8e48]);
  (876093386055223200, [0x5507]);
  (876344537296489200, [0x7d107ebd]);
  (876764529514021800, [0x80a5]);
  (877017374149357700, [0x6843]);
  (877355497886544600, [0x8a138bad]);
  (877864836848454800, [0x73af74b0]);
  (877949979467476600, [0x9636968e]);
  (878633742815237000, [0x4f10]);
  (879322213692986800, [0x928594dc]);
  (879928538634092500, [0x978b]);
  (880102451721405300, [0x68af]);
  (880713540484685400, [0x5a03]);
  (881152330131227200, [0x7bc48303]);
  (881240319578171200, [0x96d5]);
  (881504753403480200, [0x574a]);
  (882302276460917200, [0x4f4e5b595b6b5bdf]);
  (882480370898016600, [0x8cbf8d38]);
  (882569537199064800, [0x5211]);
  (882658783077366800, [0x6d6a]);
  (883016565212155200, [0x4e18]);
  (883645780771244200, [0x53d4]);
  (883735992775557800, [0x78b3]);
  (883916661298052900, [0x6ee97058]);
  (884097656822576800, [0x70ed71b1]);
  (884369765834012800, [0x6912755c]);
  (884642617299333300, [0x4e00]);
  (884824932755484800, [0x9b3c]);
  (885282180922973800, [0x7891]);
  (885741529456892700, [0x597d]);
  (885925861306321700, [0x5c816b72]);
  (886110533565638100, [0x80aa]);
  (886202997742360000, [0x8c6a]);
  (886295547494454400, [0x4e1b53e276d684cb]);
  (886759585450104600, [0x9c2d9ccd]);
  (886852651999399900, [0x4ed9]);
  (887039045343206000, [0x818a]);
  (888070465644882600, [0x817f864e]);
  (888448180919257000, [0x5b99]);
  (888732406596150000, [0x51a0]);
  (888827328292883200, [0x6b66]);
  (889494315043794000, [0x70ef]);
  (889589963066389600, [0x684c]);
  (889877457274949500, [0x676f]);
  (890165780396358000, [0x7a9d7aa9]);
  (890551508936334000, [0x5bf8]);
  (890841784902130100, [0x5cad5dba]);
  (891035771383912800, [0x8017]);
  (891132905922875900, [0x7e8c7eed]);
  (892305939901424800, [0x7a9f]);
  (892502790358692000, [0x8fb0]);
  (892700029081412400, [0x5916]);
  (892798794521539700, [0x4eae5251528d]);
  (892897657604233800, [0x5806]);
  (893095677470920000, [0x9905997c]);
  (893194834643149500, [0x5e78]);
  (893592449481113400, [0x9759975c]);
  (893692100710087300, [0x65cb9f13]);
  (894091701641425600, [0x4f55]);
  (894292102510097000, [0x5b9c]);
  (894392453747821000, [0x7f72]);
  (894794868777793600, [0x9910]);
  (895097746344009700, [0x7e2b7f1d]);
  (895198909731494100, [0x5dfe6c9f6e9d]);
  (895401544046017300, [0x629a64ab]);
  (895503015389072000, [0x9d239e2a]);
  (895706267491564200, [0x809d]);
  (895909933549744500, [0x53ea]);
  (896011922339819100, [0x8179]);
  (896114015253229800, [0x7a97]);
  (896216212502799000, [0x78b19e7c]);
  (896626049142027300, [0x58755c18]);
  (896728771287680400, [0x6b6785af]);
  (896831599060236900, [0x66b4]);
  (896934532677148300, [0x4e714e82]);
  (897347329960951400, [0x5e3d]);
  (898073851060092600, [0x638c]);
  (898596045458207700, [0x8c9d8d1d]);
  (898910676027144400, [0x76c6]);
  (899120981046822200, [0x916c]);
  (899648686756906600, [0x89e3]);
  (899860551242935000, [0x7814]);
  (899966652048644500, [0x80cc]);
  (900072865547743000, [0x8cac8d23]);
  (900179191979875900, [0x4f2050b3]);
  (900712526577412100, [0x5377]);
  (900819535683396600, [0x8f298f88]);
  (901033898037721700, [0x5f97]);
  (901571822949695300, [0x4ef0]);
  (901895972342112500, [0x5f375f3a7235]);
  (902112657150621500, [0x60a38ef88f74]);
  (902547440444231900, [0x95a59600]);
  (902656432280634400, [0x6247]);
  (903203180498847800, [0x5f537576]);
  (903422719555191200, [0x59835bb4]);
  (903642741646151600, [0x4faf]);
  (903973685136288200, [0x68d2]);
  (904084243467063200, [0x9769]);
  (904194924164582200, [0x821e]);
  (904638876059118900, [0x69db6abb]);
  (905532736759200000, [0x5a62]);
  (906095484445772700, [0x75747587]);
  (906321473242516400, [0x7164]);
  (906547973905601600, [0x7def7eac]);
  (906661416912662900, [0x7070]);
  (907116480269062500, [0x5351]);
  (907688237115382900, [0x4e01813881c99e7f]);
  (908494228813092900, [0x51b2885d]);
  (909657032612604900, [0x6d3b]);
  (909774060127424000, [0x559c]);
  (909891224757112800, [0x6298]);
  (910243544557844700, [0x5bfa]);
  (910951930046685200, [0x8981]);
  (911070483706095200, [0x672b]);
  (911189178082048200, [0x5b88]);
  (911546108859560200, [0x849c]);
  (911665369458072500, [0x7d177eb1]);
  (911784772457333200, [0x514863aa]);
  (912143839270406000, [0x6c5f]);
  (912263815289596600, [0x888d98389888]);
  (912504200020736000, [0x78c1]);
  (912624609427216500, [0x53a5]);
  (912865864067754800, [0x80bf816b]);
  (913228840872812800, [0x6c41]);
  (913350126515333600, [0x7a3f]);
  (913714868561038000, [0x5c16]);
  (913836745480451000, [0x53e5]);
  (913958771120973900, [0x58a865979b25]);
  (914203270020280600, [0x82f1]);
  (914325744009870000, [0x5fc661b6]);
  (914694068551499800, [0x764c9677]);
  (914940374094739500, [0x5c3e]);
  (915310973654171400, [0x5357]);
  (915434812679286000, [0x830e8396]);
  (915558805255618000, [0x58fd5bff]);
  (915931708111604700, [0x732b8c93]);
  (916056318719629400, [0x4f2f67dc6ac3]);
  (916181084799444900, [0x5de7]);
  (916306006739488000, [0x585e]);
  (916807260921842500, [0x707d707e]);
  (916932968040847600, [0x8150]);
  (917311040324838300, [0x534e579258d883ef92b795009ec39ec4]);
  (918071500263360100, [0x9418949f]);
  (918198807728040000, [0x5927]);
  (918453909907200500, [0x9ad3]);
  (918709664522312300, [0x86c7]);
  (918966074919206000, [0x88d4]);
  (919351927487959000, [0x5c14723e]);
  (919480876570946200, [0x818f]);
  (919739274647538700, [0x62f3]);
  (919868724503803200, [0x96359663]);
  (920258082555716500, [0x7259]);
  (920518499369555200, [0x7b3c7c607d1b7eb7]);
  (920910400589628800, [0x96c0]);
  (921172523937616300, [0x7b26]);
  (921567001766717900, [0x54687e697ef39031]);
  (922095404581378400, [0x5370]);
  (922493547111296800, [0x5e866176]);
  (922893281154558800, [0x582482a68606]);
  (923160660992999000, [0x8033]);
  (923563076022971600, [0x58f658fa]);
  (923967116976672100, [0x6591]);
  (924102160886459200, [0x57065713]);
  (924780129584997100, [0x934b9505]);
  (925325833531303000, [0x6ce1]);
  (925462726092037000, [0x61677538]);
  (926150014020813300, [0x675f68c9]);
  (926703265777786000, [0x713080fa8205]);
  (926842058305270700, [0x4f599918]);
  (926981043734176200, [0x6749]);
  (927120222601458400, [0x541b8517]);
  (927399162810216300, [0x886b]);
  (927538925236880000, [0x983b9891]);
  (927819037464851200, [0x52e48404]);
  (928381626853068000, [0x7af9]);
  (928664112916623600, [0x573e]);
  (928805655756956700, [0x5851]);
  (928947399225054000, [0x68da]);
  (929089343890476500, [0x76b176ba]);
  (930088638430228400, [0x7d337ec5]);
  (930375994949801600, [0x5b8776d776dc]);
  (931533750284045900, [0x8054806f]);
  (932705066750411200, [0x5d16]);
  (933444168415050200, [0x70db71ed745a]);
  (933741345453965900, [0x616e8651]);
  (933890265809112700, [0x575d58e9]);
  (934488174914718400, [0x5947]);
  (934788475440695300, [0x654c6575]);
  (934938964558637400, [0x4e8e65bc]);
  (935998777657819800, [0x4e384ece5f9e8549]);
  (936303655942755600, [0x6c646e6f]);
  (936609466578637800, [0x53e474f6]);
  (937378109871053400, [0x5858]);
  (937532550056190800, [0x5561]);
  (937687229128020600, [0x6b7b7897]);
  (937842147826703600, [0x667a85fb]);
  (937997306895845500, [0x53a65ec8]);
  (938152707082519000, [0x674e7389]);
  (938464233814213800, [0x4ed7]);
  (938620361870909100, [0x5821]);
  (939090213949064500, [0x529e8fa6]);
  (939404679617011600, [0x4f5b53a25ec2]);
  (940036593252159500, [0x9d269e2f]);
  (940354053836236800, [0x5885]);
  (940672525442988800, [0x6b32]);
  (941312527627535500, [0x7248]);
  (941473170232362800, [0x6bef]);
  (942767686691566600, [0x561b732a8c6c]);
  (943257483589121300, [0x518a518c]);
  (943421283789545100, [0x7e967ea4]);
  (943585352735291100, [0x846c]);
  (943749691309664100, [0x76d27bf78ff0]);
  (944079180899349300, [0x75d59a0e9a91]);
  (944244333703196800, [0x53c253c3]);
  (944409759712799300, [0x8854929c]);
  (945074213984666200, [0x808c]);
  (945575468167020700, [0x50e7]);
  (945743112799746000, [0x7d507ed3]);
  (946247739606508300, [0x6c57]);
  (946585577765671000, [0x53195bd2]);
  (947435200548579600, [0x7da27ef8]);
  (948292103821089700, [0x5751]);
  (948464369152234400, [0x680f6b04]);
  (948636931748981400, [0x53395de29752]);
  (948809792639043000, [0x5076]);
  (948982952855471000, [0x5efa8f9e8fad]);
  (949156413436691800, [0x67567f6a]);
  (949853280368301000, [0x5ac26625]);
  (950203543423421200, [0x517072d7862d]);
  (950379136093647700, [0x4ed15d1983b284ee]);
  (950555037634165800, [0x8abc8c0a]);
  (951261754356475000, [0x5bc76e05]);
  (951439216692311800, [0x51f0]);
  (951616994516911800, [0x7978798d]);
  (951795088954011200, [0x6daf]);
  (951973501133361400, [0x83c7]);
  (952152232190770900, [0x864f865c]);
  (952331283268149800, [0x6a58]);
  (952510655513552400, [0x66977f6988f3]);
  (952870368131637400, [0x532a7db17eb2]);
  (953231379354047400, [0x6f06]);
  (953412374878571400, [0x5bbe8cd3]);
  (953593698590989400, [0x62c9]);
  (953775351683629100, [0x628a]);
  (955056247512887200, [0x74e38ce68d4b9e93]);
  (955610265550448900, [0x81f4]);
  (955795622415381100, [0x6c7d]);
  (956540504816680200, [0x870288b1]);
  (956727595610261400, [0x4fbf]);
  (957102830572116400, [0x535c5a926c0f7de87f16]);
  (957290977382087000, [0x4ec650d5]);
  (957857551135654700, [0x5e187c3e]);
  (958237058232510000, [0x5f26]);
  (958427353247118500, [0x6b63]);
  (958809033099788600, [0x67f47554]);
  (959000420718017000, [0x4e3e4fa750748209]);
  (959192175330944000, [0x5a7f]);
  (959576791189692000, [0x6ee86ff175b979bd]);
  (959769655280332600, [0x730e7375]);
  (959962892055437900, [0x5ed3]);
  (960156502958124500, [0x6263]);
  (961522377851228600, [0x5fcc]);
  (961719034748432700, [0x607660e17a3c]);
  (962113512577534300, [0x7b4b]);
  (962311336578744800, [0x975e]);
  (962509552699144000, [0x7fc1]);
  (962708162496306800, [0x611b7231]);
  (962907167537108000, [0x5e16]);
  (963306369664061700, [0x7136]);
  (963506569931128900, [0x67a26a1e88e48932]);
  (963707171803815600, [0x7334]);
  (963908176896618000, [0x52dd80dc]);
  (964109586833788200, [0x75ab]);
  (964513627787488700, [0x7802]);
  (964919307857050000, [0x4ec16885]);
  (965326640395813700, [0x8ca08d1f]);
  (965530930558793600, [0x59c6822a8a2d8bbe]);
  (965940767198021900, [0x4e3990099078]);
  (966146317116231400, [0x969499dd9a7c]);
  (966558688834617600, [0x8292]);
  (966972768101220800, [0x685068cd854a]);
  (967388569116087100, [0x5146]);
  (967597119765189400, [0x7901]);
  (968015530417446800, [0x96349670]);
  (968646447336773200, [0x7f5a7f708fd1]);
  (968857640657087600, [0x65576e208d25]);
  (969069280947725400, [0x602a]);
  (969281370104639000, [0x592268a6]);
  (969706902661652800, [0x9abc]);
  (970348616093716200, [0x9808987b]);
  (970563438947545300, [0x52b352de7c7d9830988a]);
  (971210690398107000, [0x7e9c7f06]);
  (971427375206615900, [0x4e32535275be]);
  (971644530557966800, [0x963b]);
  (971862158500226200, [0x67a368d7]);
  (972080261094862400, [0x98019875]);
  (972517898554842300, [0x50658c79]);
  (972737437611185700, [0x5c3c]);
  (973177966957977400, [0x77fd7845]);
  (973398961523057700, [0x79c1]);
  (973620445556013000, [0x7bc797f597fb]);
  (973842421229844200, [0x5c51632f819b895f]);
  (974735284304274400, [0x7c95]);
  (974959751289656800, [0x5e1c5e5f8fb1]);
  (975184723263058300, [0x70f7]);
  (975636191298511000, [0x5e105e33]);
  (975862691961596200, [0x8151]);
  (976089706815050200, [0x7df47ec38db3]);
  (976317238198763700, [0x4e73]);
  (977002955171377400, [0x7cb184c9]);
  (978388658637520000, [0x53ef9b54]);
  (978621487613479000, [0x68767d307ec6868187fb]);
  (978854859948101100, [0x55897a37]);
  (979558262613839200, [0x67c47e617ee3]);
  (980029961601653100, [0x86a3]);
  (980266648102679700, [0x920994a0]);
  (980503896138042700, [0x810a]);
  (980741708378539400, [0x53ae5edd]);
  (981219036253805200, [0x563464cd7f50]);
  (981458557326400600, [0x64ce]);
  (981698653480154500, [0x4fa34fb6589f82c78466]);
  (982422420210177600, [0x597859e688f9]);
  (982664844571328200, [0x718a]);
  (983395663902000700, [0x5ab362a463927a917aaf86798a558b778bc49df99e70]);
  (983640462065864600, [0x8cdc8d50]);
  (983885860962021400, [0x4e8c7f8e80c38ca18d22]);
  (984131863546107500, [0x5c3a]);
  (984378472795626900, [0x7db87eb6]);
  (984625691710165900, [0x68cb]);
  (984873523311612500, [0x6ccc72f8]);
  (985121970644378700, [0x521a525b9913997f]);
  (985371036775624000, [0x87ba9a5f9aa4]);
  (985871037817294600, [0x4eca]);
  (986625758380832700, [0x549956a8]);
  (986878603016168700, [0x5eb7]);
  (987132088576487400, [0x57ab588a]);
  (987386218319354600, [0x5c4f88d9]);
  (988409245144436200, [0x7239867e8766]);
  (988924710203302700, [0x812f]);
  (989183442559797800, [0x77ed9d5d9e45]);
  (989702924247508200, [0x871c87768b6f8bd1]);
  (989963680588216200, [0x781678da]);
  (990225118645623300, [0x67686901694a69e87436]);
  (990487241993610800, [0x798f932f9519]);
  (990750054234237600, [0x62536c226c2b]);
  (991013558998038100, [0x5c3f]);
  (991277759944322000, [0x8cf48d56]);
  (991542660761479800, [0x8ab28bfe]);
  (991808265167291300, [0x9176]);
  (992074576909239700, [0x7d687ed28cec8d26]);
  (992609337541899400, [0x5427]);
  (993146973245537300, [0x4e0972fc]);
  (993687515102228100, [0x8ecc8f68919a]);
  (993958885689387700, [0x8f458f9590ca]);
  (994503846166144200, [0x534970c370f4]);
  (995051792742606800, [0x6ef47abf]);
  (995326896079795800, [0x4f8667658f1d8f89]);
  (995602758323703800, [0x5f15603b79d87e3d9ab8]);
  (995879383672992800, [0x51f365c5]);
  (996156776361265300, [0x76d4]);
  (996434940657452900, [0x923494c3]);
  (996993601328316900, [0x53ed5ba15be987478805]);
  (997274106421077800, [0x53c96a907c37]);
  (997555400558739300, [0x6b7975ae7621]);
  (997837488192903300, [0x67f36db5]);
  (998120373812951200, [0x699c]);
  (998688557159694300, [0x59be5c55]);
  (999546931528833400, [0x5c04815599d29a79]);
  (999834701511594800, [0x8fde9023]);
  (1000123302000508500, [0x726780b4991a]);
  (1000412737803144800, [0x4fa850d17f388352]);
  (1000703013768941000, [0x67cf7740]);
  (1000994134789686800, [0x51995beb]);
  (1001286105800020300, [0x52d2]);
  (1001578931777929000, [0x4ed3500986d9981c988c]);
  (1001872617745260100, [0x6da16e267470762986958836]);
  (1002462589957978900, [0x4e2556b498f2996e9d099e26]);
  (1002758886471044700, [0x685169fd8cb48d3592c194dd]);
  (1003354126323774200, [0x60687c278e449a459a71]);
  (1003952930508236500, [0x8ca98d29]);
  (1004253682614632000, [0x959895f8]);
  (1004555341968574600, [0x7b2c9631]);
  (1004857914060228200, [0x7cd5916f]);
  (1005161404429743600, [0x8ddf]);
  (1005465818667866500, [0x6b62857e]);
  (1005771162416555400, [0x7737]);
  (1006077441369610000, [0x82bd]);
  (1006384661273307100, [0x5df78aed8c15]);
  (1006692827927048000, [0x65ad65b7971c]);
  (1007623067193279300, [0x7f577f85919b]);
  (1007935079926903700, [0x4e245169523a5f99600061f7]);
  (1008248069227796300, [0x5f007709958b]);
  (1008562041228263200, [0x7b11]);
  (1009509915623717500, [0x682a]);
  (1010787888288357400, [0x4e604ed875867fd2]);
  (1011433051816506400, [0x72ac81708a548bcf]);
  (1011757201208923400, [0x80f1]);
  (1012082404747561200, [0x8ff7]);
  (1012408669311042800, [0x5fbd]);
  (1012736001845539700, [0x8a668bd5]);
  (1013393898955343900, [0x7cb9]);
  (1014056153031393300, [0x5bd368a27b4f841d863f]);
  (1014722822167212300, [0x4ead62dc8877971e]);
  (1015057830855740300, [0x758f8fc7904e]);
  (1015393965626010900, [0x6e236e7f6fd5]);
  (1015731234073874800, [0x9b44]);
  (1016069643872298800, [0x727974e675a1760d7dde7f0e92749451]);
  (1016409202772412700, [0x5bbf80c681bd]);
  (1016749918604574200, [0x6c5099099977]);
  (1017091799279452700, [0x7a96]);
  (1017434852789131700, [0x6d9b6fe4]);
  (1017779087208228900, [0x57c3]);
  (1018124510695037600, [0x7bee7c4388848956]);
  (1019869755690160300, [0x5f276c139b1f]);
  (1020222489741957000, [0x4f8d543b8eaf8ec0]);
  (1020576472412469500, [0x63a180e191c7]);
  (1020931712572906300, [0x56db]);
  (1021288219189356000, [0x6eaa80f8]);
  (1021646001324144300, [0x51745f316ce88208821f]);
  (1022005068137217200, [0x91ca91cb9f9c9f9f]);
  (1022727092934565900, [0x5e157fe0]);
  (1023090069739623700, [0x537f547c]);
  (1023454368867473900, [0x5a765b38]);
  (1023819999987784800, [0x52245c019db49e64]);
  (1024186972876681200, [0x563156d1690e7076]);
  (1024924983606443400, [0x5e7b]);
  (1025668481455195100, [0x5bb59f0e]);
  (1026042313666255800, [0x686869f3]);
  (1026417548628111000, [0x7591]);
  (1026794196907658700, [0x8b208c2393969501]);
  (1027172269191649300, [0x60696846]);
  (1027551776288504500, [0x62b1846386aa90bb913098719885]);
  (1027932729130171200, [0x6813]);
  (1028315138774011600, [0x6649664b7459]);
  (1029084373336327100, [0x5531]);
  (1029471221014119000, [0x7736]);
  (1029859571016759000, [0x50915e386770]);
  (1030249435058324500, [0x4e0853757682]);
  (1030640824990438300, [0x5578562f8760]);
  (1031033752804427200, [0x820c865a865b]);
  (1031824270755138400, [0x516b536659ff627f]);
  (1032221885593102500, [0x5a5a92239499]);
  (1032621087720056300, [0x4f1e4fe950065098514751f6]);
  (1033021889859810100, [0x53175cb3]);
  (1033424304889782700, [0x6c278870917191ac]);
  (1034234025913044500, [0x680868e7707886db9320952d]);
  (1034641358451808200, [0x5e7c87f9]);
  (1035461035172226000, [0x89e689f8]);
  (1035873406890612200, [0x54e8797f7984]);
  (1036287486157215400, [0x52cb52f36f2b7b807c21]);
  (1037120824313129800, [0x6d95977c]);
  (1037540112139133400, [0x602882e69a629a74]);
  (1037961165392767700, [0x51e05e7e82ef9732]);
  (1038383999003719900, [0x5a25]);
  (1038808628091865000, [0x964d9d289e2d]);
  (1039663334149710700, [0x9640]);
  (1040525408454101500, [0x5ce65dd279658f9c]);
  (1040959248613961400, [0x609f65e7820a85878a238bc0]);
  (1041394979150857000, [0x93269526]);
  (1042272177758140600, [0x7b7e7c3d85aa8861]);
  (1042713679579052200, [0x7b5d7b8f91d89489]);
  (1043602574320776800, [0x65e6]);
  (1044050002360269000, [0x6309]);
  (1044950909354505500, [0x5154]);
  (1045404424871044700, [0x520373a9]);
  (1045860006524630700, [0x4ea163a263a576bf7da07eff]);
  (1046317673227372000, [0x53237126]);
  (1046777444152234800, [0x65f1665a7b0b7b4d8efe8f7c]);
  (1047239338737864300, [0x8ce28d24]);
  (1047703376693514500, [0x88df]);
  (1048169578004095600, [0x559858576d82]);
  (1048637962935338300, [0x55bb6d9d6f87853d]);
  (1049108552039079500, [0x575f58b359e8674f6df56e0a81ed]);
  (1049581366158674300, [0x63cf8721881f]);
  (1050056426434534000, [0x6cbc]);
  (1050533754309799800, [0x82d4]);
  (1051013371536149000, [0x90b8]);
  (1051979562627322700, [0x51ac7fbd]);
  (1052466181592440000, [0x5fe76182]);
  (1052955180121859200, [0x51fd6211]);
  (1053446581602102000, [0x7d0d7eb3]);
  (1053940409766160400, [0x826f]);
  (1054436688700373300, [0x6302639b]);
  (1054935442851477100, [0x4fdd625164b26563847593189524]);
  (1055436697033831600, [0x5e5469b479fb]);
  (1055940476436827200, [0x6cf5783e792b7aff9798]);
  (1056446806632482000, [0x5e9e80ba9f90]);
  (1056955713583229000, [0x6cf38304]);
  (1057467223649906200, [0x52b252c17e6a7ed88902984f989c]);
  (1057981363599948000, [0x5c495c5c695a7b49]);
  (1059017642303502700, [0x591a7e6d8327]);
  (1059539836701617900, [0x5f0a817e92c5950c9a30]);
  (1060064772290232100, [0x612461a46817]);
  (1061122983223285800, [0x5df16982752596769a379a9a]);
  (1061656317820822000, [0x5371542c5ef65f2f5f4e71d5733f807d8ac78c08]);
  (1062192512134960700, [0x916e]);
  (1062731596998448300, [0x4e104f8452a3576f676069d3]);
  (1063273603745382300, [0x878290e1]);
  (1063818564222138700, [0x4fd86f9c703e798579aa]);
  (1064366510798601300, [0x6cbf]);
  (1064917476379698300, [0x4eac915a924094be]);
  (1065471494417259800, [0x5ba6632563ee70c2721b771f]);
  (1066028598922205400, [0x5c975d1765b086fe]);
  (1066588824477072400, [0x574f58de637763a76da76f978c5a]);
  (1067152206248897900, [0x51e4722a96f397429cf3]);
  (1067718780002465600, [0x5a745b3067f56805]);
  (1068288582113929400, [0x51b06655668868636a94]);
  (1068861649584828000, [0x57a9580a7a76828b82d3]);
  (1069438020056503000, [0x55767c9f85d3861a96f9]);
  (1070017731824935600, [0x4ef259dc68a87dbf7ef5]);
  (1070600823856014800, [0x76f2]);
  (1071187335801254600, [0x4e8f80108667]);
  (1071777308013973400, [0x5986599d5e1a836b84718525852d8f4d8f99]);
  (1072370781565955000, [0x56ea56f15e2e5e6b666e89bd89c896c1]);
  (1072967798264605400, [0x57e07ca58d0a8d5e]);
  (1073568400670626500, [0x7b1b8b028c13]);
  (1074172632116222700, [0x587e68696a017a81]);
  (1074780536723861000, [0x62db]);
  (1075392159425604500, [0x63f46f6d]);
  (1076007545983042500, [0x5c0a69846b16]);
  (1076626743007834500, [0x539a576a7a1e8a638be38f098f7d]);
  (1077249797982898200, [0x58d58925]);
  (1077876759284257700, [0x668782d1]);
  (1078507676203584300, [0x621f]);
  (1079142598971450000, [0x51bb51cd]);
  (1079781578781327000, [0x62346b2087c68e2a978d]);
  (1080424667814356200, [0x96989c579cde]);
  (1081071919264917900, [0x4ed54f3d663c665d82aa8adc8c0d9d519e43]);
  (1081723387367037300, [0x66916e21]);
  (1082379127421653200, [0x5eb8775177bc]);
  (1083039195824788300, [0x4f2a507d632164cb73c0845b868087559214949e]);
  (1083703650096655300, [0x5f526b788a2a8bbf918b]);
  (1084372548911734800, [0x59377262]);
  (1085045952129869400, [0x4ed45239524e52a98a418bc29be89cb8]);
  (1085723920828407300, [0x8dbe]);
  (1086406517335447200, [0x4fd1543654506f0f7d797e8f7ee27f2080a9]);
  (1087093805264223400, [0x5ad45b2a5b7d8cde8d4f97ad]);
  (1087785849548680900, [0x4e4b512168d88a3a8bca9091]);
  (1088482716480290200, [0x4f01]);
  (1089184473746154900, [0x4fa04fe062cd68e06b479e9f]);
  (1089891190468464000, [0x6c5b921594ae9774]);
  (1090602937245350500, [0x57a36d516e3e70c870ec71fc817b81a98693]);
  (1091319786193211700, [0x59e55be1789f84dd85cd870d]);
  (1092041810990560400, [0x736d737a829d9dd79e25]);
  (1092769086923468300, [0x57646c617095786b79c67a08871393109525]);
  (1094239701662437800, [0x5077]);
  (1094983199511189700, [0x4e1e575e58625bbd5bec5d2961627cca973e]);
  (1095732266684105500, [0x5c11725288598d8a990c99759b41]);
  (1096486987247643800, [0x5ac160656d456dfa803b85e4]);
  (1097247447186165700, [0x6b226b6176c298c698d9]);
  (1098013734460722500, [0x77a59d3f9e3d]);
  (1098785939070113600, [0x4e11515c644a6524699470e771d28700916a919c]);
  (1099564153114319000, [0x52fa57a258a95f85889c896a]);
  (1100348470860421700, [0x5f13640f75a479f8]);
  (1101138988811133000, [0x5e905eec7d6e8574860a8910929894ed9ac59acf9bae9c9c]);
  (1101935805776050800, [0x574e58d15e1b644664fa7aed83388cc88d3e]);
  (1102739022945777200, [0x7c3f9685]);
  (1103548743969039000, [0x5b245b3769ae83639150]);
  (1104365075032955300, [0x78fa830586ce8823]);
  (1105188124946606700, [0x568f5939593e6aac900696c59704]);
  (1106018005228076200, [0x52a087c099d59a7e]);
  (1106854830195128000, [0x80be814e90ed9d6c9e4f]);
  (1107698717059714400, [0x53955ec1669675b876fe9afb]);
  (1108549786026505200, [0x540369427094732c78e87a8d7ac59d619e49]);
  (1109408160395644300, [0x6cde6fd87f9a8393]);
  (1110273966669955700, [0x75eb76478c9e8cab8d1e8d2f]);
  (1111147334666831200, [0x51916297635f640d68666a3a785d80c4926494a99d729e4a]);
  (1112028397635046800, [0x4ec7502a5362724d725876e787348f448f9690aa]);
  (1112917292376771300, [0x68fa69cc88f0]);
  (1113814159375047400, [0x5bf95c0d6c2e76c59057907a]);
  (1114719142927039300, [0x4e564e5851b751fb64ca67d36beb82b3]);
  (1115632391283366500, [0x67ff69886ada7b77959295f2]);
  (1116554056793858900, [0x526f75bd]);
  (1117484296060090200, [0x51ed57a658be59155bdd5be26191]);
  (1118423270095074000, [0x4ea95703755d78f793e29556]);
  (1119371144490528500, [0x579b5e06]);
  (1120328089592143600, [0x4eff69d07caa7cde82af82e5]);
  (1121294280683317300, [0x4f26502b624e69bb6d746e0d6f2c732979c0]);
  (1122269898177853700, [0x6a8077bb781a786f]);
  (1123255127822155000, [0x76cf76de9432956f96489673]);
  (1124250160907471700, [0x605063016855928394f3]);
  (1125255194492821800, [0x4e9a4e9e5999680e6adf6c287b797c4c]);
  (1126270431639223600, [0x53f38f4e8f7f92a894f5]);
  (1127296081655942600, [0x7d217eba8d0f8d628fdb9032]);
  (1128332360359497200, [0x5462672d6748]);
  (1129379490346226700, [0x5baa61b27981]);
  (1130437701279280400, [0x689772ee73457a577b20]);
  (1131507230190955200, [0x72f2733b7b3a7b8b809a]);
  (1132588321801376800, [0x4e13516859935c088513]);
  (1133681228854595900, [0x4e2a500b5b62659c70b877db78c581718346834a9427950f95a19602]);
  (1134786212473254400, [0x55836d526e346ef87b9488c296c99ed1]);
  (1135903542533066900, [0x590d5b815be7719f7b5086ee883b]);
  (1137033498058460200, [0x575a58056dc0789b78e783ca843c90a393829541980a987c9c549cdd]);
  (1138176367640822500, [0x551170ac]);
  (1139332449880930100, [0x5948675e7db47f00927b947094a594ec]);
  (1140502053857249200, [0x57236717677767e968426b276b506d2a763e766e805680868dd1]);
  (1141685499621949500, [0x53435a325aa78003848292ac94d097389867987e9be29cb59ce99e20]);
  (1142883118726621000, [0x52726eb67b957bf17c6c8584]);
  (1144095254779855600, [0x5dc55dd48757]);
  (1145322264039037000, [0x5fd98c829706]);
  (1146564516038892700, [0x62087663766c8edf8f6f9f959f9b]);
  (1147822394259578600, [0x5c6567406bba82f78d6491c99d899e519f669f88]);
  (1149096296837321600, [0x60128a078a938ae68c1b97099ef4]);
  (1150386637320912400, [0x704c72727c417c5f9c779cc4]);
  (1151693845477647700, [0x4e5d520753ca549275f479be814a814b81d895ad95fe]);
  (1153018368152649800, [0x5c6f65a782cf83898607958295e99b139b22]);
  (1154360670185864000, [0x645868c26afa6d8c6e678237]);
  (1155721235391441800, [0x4f0a565c56955b5d658b6e9c777e7bd37c0d86a48e6c947c95239f4b]);
  (1157100567604675200, [0x59ae5c3974417bc68b0e8c1c8cfc8d2d93419528]);
  (1158499191802149200, [0x55ea5c4161be656666ff670b77fe792c9c7a9ca1]);
  (1159917655301345000, [0x4ed64f6950a8513252ab56da60e961f28afa8c1a]);
  (1161356529046555000, [0x51cc673467906a386a477b067f3a852c]);
  (1162816408988670200, [0x6cfb700986b18785984e989a98e998fd996899719cf49e23]);
  (1164297917567184200, [0x51f8534f535454646cf0701187128ce48d318fab8fae991e996f9c0d9cc5]);
  (1165801705303638300, [0x575073ba7405746f74bd75b57fc5821c84ff]);
  (1167328452516717000, [0x500c72d07a84849984b28936]);
  (1168878871170313600, [0x51f968536c2f7d557edd868a88c6896097cb97e69b43]);
  (1170453706867127500, [0x577359516860690f8d779943998d]);
  (1172053741001771600, [0x519560b26a716ae56f0275b176b07d467eca8148886c896f]);
  (1173679793088949600, [0x5237540a5ec9673d6b9679e47ffb8098906d98db98de]);
  (1175332723284070700, [0x5c4866fc6bc26f6275377dbb7efd8f4298ea996a]);
  (1177013435115709000, [0x55845b5560e06ed173cd762b767179fd7a62808b]);
  (1178722878451638900, [0x69ad6a59936c9539986b98a49911997d9b039c329ccc]);
  (1180462052722825700, [0x578259cb5feb752b76ea8206828d83618f3f93df94f2]);
  (1182232010432765900, [0x4f9b51127a7988628dcb8fdc9060]);
  (1184033860983033800, [0x5ff163556795730174ef750c7d3a7ec07f9488e289338a958bde]);
  (1185868774849853400, [0x4e4c5c4e5f255f4c6656668968d570cf71e7728a72a27600811081cd82a583bd85d589139170943a94db]);
  (1187737988151068600, [0x6be16c086d3c7aaa85dc]);
  (1189642807648138100, [0x518852c758305ca166f969df6ab36c5e80bd853b918c]);
  (1191584616233848200, [0x54106025615161fe75de7738800d8afe8bfa8fbd907c]);
  (1193564878963466200, [0x554955e36de1819d843887d293b59553]);
  (1195585149695218200, [0x4ec079497aa67ac7958995ed]);
  (1197647078415491800, [0x5c2460b6689379e37dac7ef68235832c95f7]);
  (1199752419335275000, [0x52c3534a65c1662767da6d7879577bd982cd84bc96729b45]);
  (1201903039857371300, [0x581158795fe16c267280765c79607c2a7cdf80c08139836085ba87e59c3b9cd7]);
  (1204100930529248900, [0x6249697771e5788e93b3944494f8954d9f2c]);
  (1206348216114454700, [0x548f68546df97cdc8a608e1d9d3b9e1b9e3f9e73]);
  (1208647167936924700, [0x4e8653a8542054da5760589c59ec5e615eb55eda7d277dca80b186b48f468f98925792b99419947d94b394bb9508956b; 0x972d9744]);
  (1211000217677944000, [0x4f6c563657c257da581d697875d87fb9813e831b835a83a2879f9c589c9f9f3b]);
  (1213409972835850000, [0x54095c94623376f47d097eab80db82a984bf86168788]);
  (1215879234094887300, [0x54aa6677688f74a7859b8b808bfb968f96a89997]);
  (1218411014893316100, [0x4e2b4e3d54385448557c618e66e668ad6ede6eef7f3d8096840d94b59df49e479e97]);
  (1221008563533642300, [0x4fae5192604b62006a9780c1810583ba861787078f498f648f6c8f7395c895f19655965d9daf9dfa9e6d]);
  (1223675388241858500, [0x50ee55805deb5f2963206493683d710a76567b937c597fd87ff981b3868c8a318bb8992e]);
  (1226415285660669800, [0x5f0467ec695e7b6e828e86c49410956399a89aef]);
  (1229232373357339500, [0x4ea84f365288533e5341584b59965e9f5ee2696b6c326c33811881a683148fa98faf9921994b998599889d079e28]);
  (1232131127044664600, [0x4e594f0e628473de75e37bfe7f8c83df867187688f9b92f8952f9903997a9b479b58]);
  (1235116423359632900, [0x4f5e5941596959845b7a5ee95eea66026c4a730a762678f27ce0801581fc89868d7099499991]);
  (1238193589226308200, [0x4ea24f11542b57425a0c5c505e275e4066ae6c076c0c71f978a37bcc811686e48de892b39510]);
  (1241368459057766100, [0x4e264ec4507b50c258805c3d5e7665ef76e178a17d2f871787788c6b8f268f87968699489990]);
  (1244647441340065300, [0x4e0353675a365b405e6269636f2a73e5763f766d7ba97c6e7e937f2881e583ea854887638df391ec922693c3948e949b; 0x955e964c96cf96db]);
  (1248037596507633400, [0x53a954bd62ff7b5b7be986a786fb87158e60917f91c0933395309b6f9c819d309dbf9dc29e399e5a9e5e]);
  (1251546728488760400, [0x54b3614e627964ad67d167ef6924693f6b0f7c97835f858888698cc18d329de59e36]);
  (1255183492905848000, [0x566468b369896af86c886c896d176eda6efe708a795f7b8d80dd82b782cb83a78aa08bda]);
  (1258957525704132700, [0x51a253485364585a6bf975b478d97d2b7f61822b82e3845684ec874e880d8b168c218c499df29e1d9e429e6b9e75]);
  (1262879597019460800, [0x4f18512a54af54f256ff5a1b5a315fe062b569a76c7672d275f078a77a0081888270827182d5867b86d08fd4923e936a; 0x94c09826988f993e994c998f9994]);
  (1266961796471486300, [0x55e55acc649265a469e06ae76d256fa1737e79d27b087b75826e89de89f48a8d8ba4925e93f594ba94e7]);
  (1271217757913365900, [0x4fea4ff851375ba05bf575f975fa7bab7c2b8000846986119a2d9a98]);
  (1275662934170449200, [0x524d53d953fd54c854d1555e5630594b596e59aa5ad761d261f665586b8a6bd56dcb756275a0765877ee7b197c91809b; 0x80bc88d88a858bdb8ca28d21923f92c7932e94a194bf95229f6c9f89]);
  (1280314935733938600, [0x4f5a526a545356c85d82615570e971f475ac76677e5e7ed5816582e1837d83c18f258f8a914d9ea99eb8]);
  (1285193952150881800, [0x4fc354295c60620e6a1f6b8d6ed3731b739174a374e276c87be5817481f386f3878490c1958395ea9b319d939d989e4b; 0x9e55]);
  (1290323281589636800, [0x4f50501257f7594959825a045a415cc15e915eb65ee1626762f169866b8b6b986d2b6ee46ffe761f787c7e737f3480da; 0x81c685e98df78e7a9165923894b996429c499cd69edb]);
  (1295730003716664300, [0x4f634fca50ad535653df57835e87611a649e64d86b876ba46d016dd66f54728177e2810685b988fe8c788ce39a3e9aa1; 0x9c529cdf]);
  (1301445845100659100, [0x55dd5d3d610163d2695d6ee16eff71727184751c759f75e8762776467a517a61816d841c8753881693ac942e95509570; 0x97169b749c82]);
  (1307508307282302700, [0x4fa95108559d570462d0655168f169346c0574ee751578b4813283f286c986f991e9925b9398949294c5954995d59619; 0x975b986c98a59a559a849b489bca9ca89ed89ef9]);
  (1313962159396059800, [0x51a456185653581e5e195e44612b626c62bc63da65e967e572b8734175a37618763a8093825f82de838e83b1840a845a; 0x86cf870a87f6895e9296932b94e2952195a895fa96bc]);
  (1320861446544755000, [0x5176538c53ad599e5a1f5b845e5b62ab6454659b69ce6c407092754f78ec79e77d837ee180af827e8298857b85ae85ea; 0x86ed8725874887c88a1f8bbc8f1e8f8b91909328951a9b499b4e9ecd]);
  (1328272243760127200, [0x504f568e56de57b859815bf05d4b654f6614719472c2745f75d276627be6801984e085b7863a8a168bab95be9608]);
  (1336276514527480900, [0x4f0f539853bb56e1578458df5a075a3c5b0c5f016350637b68456a356d6e72f3795d7d5d7ed4869c86b687ac87ad8b2c; 0x8c2c93a294a89664966a97769bc99be79ca49cb39f349f39]);
  (1344977652226443800, [0x51ff536f53e054405b645ba55edb70d97256758a75d4767b78237acb801c880a886588dc90ae90f5947f976597689c31; 0x9ca2]);
  (1354508670206876400, [0x56a356c260d1610667d06a286b836e146e4d6f0172067720778e7ff3822c87a887ce935b953b97af97c999ed9a879c67; 0x9ce2]);
  (1365044721772658900, [0x51c7596559675e14677567ab68c0695369ff6a7c6aa26ade6bd76d4b6d5c6dd16e2c72b47372756675e27a037c9d7cf2; 0x823b826b82a883b78424872287a2914b923993d194cd955d971399c19a739bab9c9b9e82]);
  (1376823025338297200, [0x4f384faa4fce5115522853845415541f5442566a5807605962c66742680c683368e36ae86df76fc074e475b375c27837; 0x79bf79c379d57a1a7d667ed9829c831783548364847784df856a858a86f8887d88e589498a1b8bb98e7c92ef950696a7; 0x96dc97a09bdb9cb7]);
  (1390176164600749500, [0x51c953475b5360b8620d635e64886490649164e6677c67ad689f693069666a2f6aa36d4a6dbc6de46fc1715e75cd781c; 0x78267fce8403872e8fe9900f908791f593769497953696f697d397e99bc19c289c489ca09cce9cd59d609e44]);
  (1405591232583475400, [0x5428558755b95678572d5e7f5ee3622a6574665366c969546c1f701b70eb71d973ab760c776b78937967796d7c0780d6; 0x81ec840f843184a1874987ec88038ad18bfc8caa8d138d2a8d439001964796b496ce]);
  (1423823388262870700, [0x516d51b6524a544655d357d958645ad25b215f655f6662736ce36d336f58714e7d027d327ea37ec1816983398350835c; 0x840184fd856885a6877b8c858f3b8f90923792a692f09438947994b494ce94df950295699aeb]);
  (1446137743394291800, [0x4fee505c518054ac55b75674573958d958ee58ef5c465c4a5df262cc6311663e678b69876a8e6aec6ee56feb73c8749c; 0x75e778d479137cb37f757f9e7fb2816e827f8335835b83c0855886d1897b8a508bc88fc8900a9042905c90819200934d; 0x94af9540961c980c986f988299939a659a829aa59c3e9cd49cf69e22]);
  (1474905950639470000, [0x4e5e4f304f9d500d50f551dd522e52fe541e543c54e9556455b1567b56fa59a45b835c6360a06168625265d265fa6674; 0x71b57384745e755975af760b763478277aa07bc17e107ec9800b8036804d807982b98309835e83a883d4845c8473854e; 0x876588a28d0d8d618dc38e358e8d8fa38fed915e95b19605963f9a169a2e9a9b9a9d9b839bad9bd79c869c919c9e]);
  (1515452461450286300, [0x4e8d4ee54ee851c0531d5426556656e4584d59a55c9a5d505e115e37614c62e962f4631b64c7652365cc673167b768f0; 0x69ab6a796ad36ca56cfc6d886d9f6de86eba6f236f51701d7023723b7455783478877d397ddd7e2e7e437ecd7ef77f09; 0x7f297fa17fa880ab81128114812981e08212824b82eb86b088398aa68bf5914a91e392bc937a94939509951795bb95cb; 0x960e96159806987a98e398f4996499749c789c889d529def9e469e69]);
  (1584767179506280900, [0x4e454e484f435171517951aa54c454cc582f5a755ab85b0b5c275d6b5e425e7a61d161e362fc653e660f6849693973b0; 0x73fe740f74897519759475c3770b773579a779c87a177a787a837aca7afd7c7c7e467f2a7f5f801881ca827d82ac8332; 0x83b6846184b8859f867f8709878b88068a348b938ba98bc98ca78d2b8e8591dc924d92ab92e494cb94ef950498e598ff; 0x996699739d159da99dda9e359e5c9e68])
].
(** prob_emit.go:40896-40896 probEmit, state 226 *)
Definition emit_226 : list (Z * list Z) := [].
(** prob_emit.go:40897-45868 probEmit, state 227 *)
Definition emit_227 : list (Z * list Z) := [
  (441596907941485000, [0x5b50]);
  (443775864176577600, [0x5c14723e]);
  (450700769360509600, [0x65af]);
  (465757780694713800, [0x7389]);
  (483979724998628100, [0x519b8ecd]);
  (491038866779373100, [0x5c71]);
  (494960938094701200, [0x660e]);
  (495853801169131400, [0x5fb7]);
  (510361762077687900, [0x513f5152]);
  (515328553795510750, [0x6797]);
  (516360685127679700, [0x7279]);
  (517703559405322300, [0x5c3c]);
  (518112118193173900, [0x751f]);
  (520864585532182900, [0x514b]);
  (521799171774006600, [0x5e73]);
  (524956013907661050, [0x6c0f]);
  (525836668498421400, [0x4e1c6771]);
  (526093049014103450, [0x6c5f]);
  (527054482143904050, [0x738b]);
  (533426683654877300, [0x6b63]);
  (534741161630960800, [0x6210]);
  (536098938350198600, [0x5b97]);
  (536408936015139200, [0x592b]);
  (540474966011231700, [0x6885]);
  (543012965521767400, [0x534e83ef]);
  (543262031653012600, [0x5e1d]);
  (551548403099967500, [0x7965]);
  (555509012845813300, [0x77f3]);
  (555822689389082200, [0x6587]);
  (557246538787993600, [0x5b815be7]);
  (557789757890213500, [0x516c]);
  (558982358648969400, [0x82f1]);
  (560748842266949900, [0x5b89]);
  (563322943942899200, [0x9f8d9f99]);
  (567013654252311650, [0x6cb3]);
  (567048797461248400, [0x6c11]);
  (567718875792844200, [0x4eba]);
  (568251075026638300, [0x5149]);
  (572316970815491000, [0x5bb8]);
  (572613817044600900, [0x5fe0]);
  (573622228951263500, [0x5170862d]);
  (574678842555051700, [0x6b66]);
  (576323553563425100, [0x9633967d]);
  (576787412145430100, [0x897f]);
  (576942511052054900, [0x6d778fbe9054]);
  (577097850889117050, [0x4e497fa9]);
  (579457378362932200, [0x8ed28f69]);
  (581223783182773500, [0x654f]);
  (581873927691442550, [0x4e9196f2]);
  (583311028999817700, [0x5cf0]);
  (583600944299174350, [0x7ae0]);
  (585696578408740200, [0x4e4b]);
  (586376564029253400, [0x540e]);
  (587018277461316800, [0x5229]);
  (589583077906735650, [0x4e9a4e9e]);
  (590245770855496500, [0x660c]);
  (592396391377592800, [0x7237723a]);
  (593443521364322400, [0x5b9d5bf664cd]);
  (593810325993836700, [0x5175]);
  (594316889361197900, [0x4fdd]);
  (595571261209050900, [0x5dde]);
  (596369200199898600, [0x74647476]);
  (597697492974243300, [0x51ef51f1]);
  (598272207199800000, [0x901a]);
  (598850243491349900, [0x5947]);
  (599188980810166250, [0x56fd570b]);
  (600506394350250200, [0x82b3]);
  (600703051247454200, [0x5ca9]);
  (600801524913708200, [0x68ee]);
  (601344870286007700, [0x661f]);
  (601940997237657600, [0x4f1f5049]);
  (602641000096012000, [0x66fc]);
  (602942507862109800, [0x6625]);
  (605181787179547500, [0x76ca]);
  (606320515840435800, [0x9806987a]);
  (606633341955816800, [0x57ce]);
  (606685574916001500, [0x59d0]);
  (607156903361211300, [0x52d2]);
  (607630463835794700, [0x68429752]);
  (608477926534892000, [0x7d0d7eb3]);
  (610032500859941700, [0x624d]);
  (610086540310054400, [0x601d]);
  (610357176469828700, [0x98db98de]);
  (614056190509906500, [0x73cd]);
  (615187424292779200, [0x4eae]);
  (615586398888706300, [0x81e3]);
  (615700684615431300, [0x79d1]);
  (616735176599670500, [0x521a525b]);
  (616908637180891350, [0x70b3]);
  (618072794682439900, [0x7f577f85]);
  (618131359837847400, [0x4f9d]);
  (618248593145529800, [0x9686]);
  (619191440436511400, [0x6bcd]);
  (620023787691374700, [0x7fb2]);
  (620083507012349400, [0x62c9]);
  (620442573825422300, [0x653f]);
  (621648861070349800, [0x57fa]);
  (621709559099527450, [0x67d0]);
  (622318574380177900, [0x4fe1]);
  (622440823784156100, [0x6c34]);
  (622869877461042900, [0x79c0]);
  (623981686319440600, [0x5e866176]);
  (624729819484669500, [0x7b56]);
  (625043201126286600, [0x4e3a70ba]);
  (625168829283512700, [0x6e05]);
  (625609774879854400, [0x50e7]);
  (625736117284531500, [0x7dad7ef4]);
  (626116105075509000, [0x6c496f22]);
  (626880440006765800, [0x6069]);
  (627393261643457740, [0x826f]);
  (627586249802422700, [0x53d4]);
  (628882444230110100, [0x8d85]);
  (630063560322944500, [0x4f1a6703]);
  (630394139136394500, [0x4ec1]);
  (630460386240506600, [0x7530]);
  (631660400640817600, [0x9999]);
  (632468485846211500, [0x54e5]);
  (633146914499903700, [0x67176ce2]);
  (633419579972174700, [0x5e085e2b]);
  (634242065760263200, [0x5e9c]);
  (634724991845420500, [0x745e]);
  (635210261428554600, [0x6167]);
  (635349343509389000, [0x5e84838a]);
  (635628089334474300, [0x5a1c]);
  (636187922847016400, [0x8aa08bda]);
  (637459126405852600, [0x5347]);
  (637601373940506800, [0x5f375f3a]);
  (637957880556956400, [0x99ac9a6c]);
  (638100839837915950, [0x9716]);
  (638387372985244550, [0x921e94a7]);
  (639541786959931100, [0x4ead]);
  (640489661355385500, [0x6d2a]);
  (641372669300212600, [0x798f]);
  (641668746496515800, [0x529b]);
  (641891381096824200, [0x5ef6]);
  (642114512464967700, [0x50916770]);
  (643087209995711500, [0x5a18]);
  (644221437656105000, [0x52dd80dc]);
  (644831660754869200, [0x5e06]);
  (644984800141612100, [0x5802]);
  (645831284611206900, [0x4f2f]);
  (646218431823372700, [0x5eb7]);
  (646296041450861600, [0x6d9b6fe4]);
  (646373711357678800, [0x5b87]);
  (647153746514037600, [0x4e2d]);
  (647310486358038800, [0x91d1]);
  (647546057727284700, [0x75747587]);
  (648097892001129400, [0x4f866765]);
  (648176974646611200, [0x9707]);
  (648811897414477000, [0x98a898ce]);
  (649691551227410600, [0x95a3960196c4]);
  (649771904787379000, [0x666e]);
  (651229420467675800, [0x7acb]);
  (652213034955347100, [0x69ae8363]);
  (652377915454365450, [0x5e03]);
  (652708494267815450, [0x9035]);
  (652957147524815900, [0x971e]);
  (653040169530414800, [0x4e39]);
  (653539754249751950, [0x9d6c9e4f]);
  (653957989907499800, [0x96f7]);
  (654209773506733950, [0x8fea]);
  (654377982125032400, [0x683c]);
  (654630826760368300, [0x541b]);
  (654884312320687100, [0x4f26502b]);
  (655478289459465600, [0x5a016e56]);
  (656332995517311350, [0x535a]);
  (656504816865425100, [0x5357]);
  (657715904332415850, [0x5b595b6b]);
  (657890120404354400, [0x8afe8bfa]);
  (658502277978437340, [0x4e3d9e97]);
  (659118206014490850, [0x58eb]);
  (659383340946652800, [0x71df8425]);
  (659826800653439400, [0x9053]);
  (660182989810075500, [0x536b885b]);
  (660899196989737000, [0x90a6]);
  (661620570722106100, [0x66fe]);
  (661801730191941200, [0x5bab5bae]);
  (662529667892231360, [0x537f]);
  (662621033819098850, [0x4e16]);
  (662804016486806450, [0x658b9f4b]);
  (662987334594972600, [0x8ce28d24]);
  (663079119823995400, [0x93ae9547]);
  (663170989375702650, [0x83b284ee]);
  (663354982067903350, [0x52c7]);
  (663447105519835500, [0x5ddd]);
  (666061633530267700, [0x82ac]);
  (666251027526274800, [0x7956]);
  (666345859207160700, [0x5143]);
  (666726087802134500, [0x59c6]);
  (667490909885960300, [0x4fca]);
  (667586925255794600, [0x9813987f]);
  (668068389835348600, [0x88e191cc]);
  (668164961547344500, [0x79cb]);
  (669428955040926500, [0x739b746a]);
  (669624841489459750, [0x6cf0]);
  (669919392512435400, [0x6751]);
  (670610071133760900, [0x6cd5]);
  (671006897051323000, [0x8cab8d2f]);
  (671805304486145100, [0x7d057ea2]);
  (672610137804427900, [0x67f1]);
  (673116468000082600, [0x4e01]);
  (673218042412066100, [0x667a]);
  (674034373475982200, [0x90e1]);
  (674239501753038000, [0x5ba2]);
  (674857423389633750, [0x5f815fb5]);
  (674960782571962000, [0x8fdc9060]);
  (675064248696039650, [0x767d]);
  (675271502656236900, [0x7d20]);
  (675375290937478900, [0x70759748]);
  (675687303671103300, [0x65b9]);
  (676209498069218500, [0x592a]);
  (676629225862752400, [0x54689031]);
  (676734433657832800, [0x5fd7]);
  (676839752256298700, [0x9675]);
  (677156375212103600, [0x4faf]);
  (677368015502741400, [0x671d]);
  (677474003853945700, [0x6cc9]);
  (677580104659655200, [0x76d176e3]);
  (677686318158753500, [0x6728]);
  (678005637216668950, [0x8f1d8f89]);
  (678647350648732300, [0x4eea5100]);
  (679293208652673550, [0x6e90]);
  (680488225589739300, [0x5bfa]);
  (682030106356457600, [0x771f]);
  (682141155784860400, [0x7fbd]);
  (683483457818074500, [0x5929]);
  (684161426516612400, [0x9189]);
  (684274869523673500, [0x840d]);
  (684844023023652300, [0x6bbf]);
  (685072594551737900, [0x793c79ae]);
  (685646319590752300, [0x677e]);
  (686687393192536100, [0x59885abd626964f4]);
  (686920222168495300, [0x5cad5dba]);
  (687270485223615400, [0x6f6e]);
  (687504677368123600, [0x606f]);
  (688210562652086000, [0x67436b0a]);
  (688921466119996700, [0x5cb3658c]);
  (689040442933555600, [0x8b198c26928094f6]);
  (689517770808821300, [0x51748208]);
  (689637459632205900, [0x9ad8]);
  (689997388035170600, [0x51b25609885d]);
  (690479316678765500, [0x96ea]);
  (690721154765193650, [0x5e055e25]);
  (691939196620880700, [0x5b98]);
  (692061820793205200, [0x54097687]);
  (692430598101123700, [0x8abc8c0a]);
  (692800740411442300, [0x73b2]);
  (693545160722615300, [0x9b6f9c81]);
  (693919459350498700, [0x864e]);
  (694798309953806650, [0x5251528d]);
  (694924492935848900, [0x9d3b9e3f]);
  (695177337571184800, [0x71d596e8]);
  (695557807275551100, [0x53f68449]);
  (695939730082250650, [0x56fe5716]);
  (696067362518211100, [0x8499]);
  (696323117133322900, [0x4e506a02]);
  (696579527530216600, [0x65d7]);
  (697482177114813900, [0x9b4f]);
  (697871535166727100, [0x6768694a]);
  (698917296331122900, [0x5f6a]);
  (699444306773546600, [0x740f74898389]);
  (699708857192389000, [0x7db17eb2]);
  (699841395316495900, [0x517976db8332]);
  (699974109337302100, [0x5b9b900a905c]);
  (700373311464255800, [0x5be8]);
  (700506733765569500, [0x6c57]);
  (700774113604009800, [0x9f0e]);
  (701311027645515500, [0x958095e8]);
  (701445707800553400, [0x5854]);
  (702121842898357800, [0x4ed350096bc5]);
  (702529729255839900, [0x4ed9]);
  (702666061928626300, [0x797f7984]);
  (702939286142313600, [0x9759975c]);
  (703076178703047800, [0x9ea59ea6]);
  (703350527297622800, [0x52cb52f38a9e8bed]);
  (704316718388796600, [0x7b11]);
  (705152377847890700, [0x5bc6884c]);
  (705432490075861900, [0x5065]);
  (705572840976093900, [0x842885a9]);
  (705713389136967350, [0x6cfd6fa4]);
  (706136222747919450, [0x7b2c]);
  (706419108367967200, [0x83b1840a]);
  (707845666083849500, [0x6d1b]);
  (707989447560812200, [0x58f08072]);
  (708133436066611000, [0x5c09]);
  (708277632198301200, [0x6e7e7063]);
  (709292869344702900, [0x748b96c5]);
  (709731146160212500, [0x6d1e]);
  (709877666332945300, [0x53e4]);
  (710465903323251900, [0x65b0]);
  (710761324512995100, [0x4e1a696d]);
  (711206099152818700, [0x56ed5712]);
  (712101627525729100, [0x8861]);
  (712401928051706100, [0x5c9b5cf6]);
  (712703133098705250, [0x898b89c1]);
  (712854076523590700, [0x8d8a]);
  (713156648615244300, [0x4e5455ac]);
  (713612230268830400, [0x6839]);
  (713764553222882550, [0x752b]);
  (713917108553766200, [0x6eaa]);
  (714222919189648300, [0x68656a4b]);
  (714529667896434500, [0x600061f7]);
  (714683395828323100, [0x53f85bb9]);
  (714991562482064000, [0x5821]);
  (715146002667201400, [0x8cb48d35]);
  (715300681739031300, [0x4fa04fe0]);
  (715610759506856100, [0x8fdb9032]);
  (715766159693529500, [0x6e296eab]);
  (715921801748295400, [0x5ef7]);
  (716233814481919700, [0x8302]);
  (716546803782812400, [0x5168674e]);
  (717018132228022300, [0x76f8]);
  (717175736673568800, [0x5efa]);
  (717650045863170100, [0x539f]);
  (717808650178733650, [0x7406]);
  (718285978053999400, [0x70c8]);
  (718445595007281600, [0x7fa4]);
  (718925980238546200, [0x5a55]);
  (719086622843373500, [0x91f59497]);
  (719247523923943600, [0x5bcc]);
  (719408684313377700, [0x6881]);
  (719731786371522400, [0x6301]);
  (720055935763939500, [0x671b6c38]);
  (720218405336639660, [0x7f8e]);
  (720544138523670300, [0x529f]);
  (720707403866058800, [0x4eac]);
  (720870936200131900, [0x51485f157235]);
  (721198805346301800, [0x4ec650d5]);
  (721363143920674800, [0x58fd5bff]);
  (721527753011341700, [0x53615f1f]);
  (721692633510360000, [0x611a]);
  (721857786314207300, [0x51e49cf3]);
  (722854472305746500, [0x80e1]);
  (723188920778031300, [0x969096b1]);
  (723356565410756500, [0x8d6b]);
  (723524491562728500, [0x57238056]);
  (723692700181027000, [0x4ee3]);
  (724029968628890900, [0x65cf]);
  (724199030376681650, [0x590f90ce]);
  (724368378427314900, [0x51b0]);
  (725219447394105800, [0x575a5805]);
  (725390533834468800, [0x521d662d]);
  (725905556432100300, [0x5e0c68116a3980a1]);
  (726077821763244900, [0x5766]);
  (726250384359991900, [0x5761]);
  (727117692485334800, [0x5524559a5a468a00]);
  (727292060445817500, [0x5ead7d147eaf]);
  (727466732979311600, [0x6df56e0a]);
  (727816996034431900, [0x7d22]);
  (728344701744516200, [0x559c]);
  (728875206967485600, [0x751c]);
  (729408541565021800, [0x7532]);
  (729944735879160300, [0x7a7a]);
  (730303802692233200, [0x4e3b929892ee94d694ed]);
  (730664163442563100, [0x4e6666f8]);
  (730844831965058000, [0x5983]);
  (731025827489581900, [0x8005]);
  (731388804294639800, [0x53f2]);
  (731570787966338400, [0x6c9984829f10]);
  (732118734542801000, [0x52a0]);
  (732485707431697200, [0x795e9e9f]);
  (733223718161459500, [0x5927]);
  (733594776101113060, [0x5b8b5b9e5be6]);
  (734341048221272000, [0x5bb66258]);
  (734904429993097500, [0x6cbb]);
  (735471003746665300, [0x6b3d94a6]);
  (735660577263155300, [0x8def]);
  (735850510843520500, [0x89c089c2]);
  (736040805858129050, [0x5a037d397ecd]);
  (736422485710799200, [0x6d32]);
  (736613873329027600, [0x4fee]);
  (737383107891343100, [0x71368fc5]);
  (737769955569135200, [0x5b5d]);
  (738353047600214500, [0x603b7e3d]);
  (738743673096921000, [0x4e8c5e74]);
  (738939559545454300, [0x73e0]);
  (739135830462239200, [0x5fc3]);
  (739529531758173150, [0x53d1767c]);
  (740321615107317600, [0x4e0098189886]);
  (740720022008805000, [0x963596639f4a9f50]);
  (740919822275072300, [0x672c]);
  (741120022542139600, [0x8033]);
  (741320624414826100, [0x6676]);
  (741521629507628600, [0x590d6ee16eff]);
  (742127080398499200, [0x57f9]);
  (742329714713022400, [0x8001]);
  (742736219337839400, [0x5ac2]);
  (742940093006824200, [0x4f537d007eaa9ad4]);
  (743349091531976750, [0x53bf7e23]);
  (743759769727242050, [0x5316]);
  (744172141445628300, [0x627f]);
  (744793905106715300, [0x6d016f54]);
  (745002021727097750, [0x611b7231]);
  (745210572376199900, [0x5176]);
  (745419558868145900, [0x60277a0b]);
  (746049151713827400, [0x7434]);
  (746471093268098150, [0x82e5]);
  (746682733558735900, [0x6df36f8d]);
  (747107362646881100, [0x74e6]);
  (747320355272663500, [0x4e34551081e8]);
  (748392176894666000, [0x5df4]);
  (748607926708668000, [0x6d3e]);
  (749040827817626600, [0x805e95fb]);
  (750131351165852860, [0x743c74ca]);
  (750570912313156700, [0x5b665b78]);
  (751901308875792900, [0x5de5745c]);
  (752124772655934600, [0x59d4]);
  (753249643909521600, [0x82b1]);
  (753476144572606900, [0x7709]);
  (753703159426060800, [0x7c73]);
  (754158741079646900, [0x5fae]);
  (754387312607732400, [0x6d4e6fdf83f2]);
  (754846029008423100, [0x511253ef9df99e70]);
  (755076178707251000, [0x7af9]);
  (755769823106916700, [0x85e9]);
  (756002111248530600, [0x6d25]);
  (756468312559111760, [0x7fd4]);
  (756702230794429000, [0x742a]);
  (757171715224849800, [0x51445f205f358d0a8d5e]);
  (757407286594095700, [0x9f619f84]);
  (757643414212663700, [0x6df17433]);
  (758117348749053300, [0x88d592fc94a2]);
  (758355160989550000, [0x5b9a663e986f]);
  (758593540125077700, [0x9577957f]);
  (758832488864815800, [0x6649664b8dcb9e7f]);
  (759072009937411350, [0x540c6674]);
  (759552780094221600, [0x83f1]);
  (760521310667668000, [0x7fe0]);
  (761009116513011300, [0x4ea65f655f66]);
  (761499313573031960, [0x548c]);
  (761745316157118200, [0x7384767b]);
  (761991925406637500, [0x7a237a4c]);
  (762239144321176450, [0x8b498bc1]);
  (762486975922623200, [0x50995907]);
  (762735423255389400, [0x5e9a]);
  (762984489386634600, [0x5165]);
  (763987004048572400, [0x57df]);
  (764239210991843400, [0x60466052]);
  (764492055627179300, [0x656c]);
  (764745541187498100, [0x6b236da66f64]);
  (764999670930365300, [0x78ca]);
  (765509876118754900, [0x53e3542f555f]);
  (765765958204922300, [0x5f3c666f9cf49e23]);
  (766022697755446800, [0x5f97]);
  (766280098154964100, [0x7259]);
  (766538162814313300, [0x5f8b]);
  (766796895170808400, [0x4e308c50]);
  (767056298688513000, [0x8fc19077]);
  (767316376858518800, [0x5e7f5ee3]);
  (767838571256634000, [0x53178c37]);
  (768100694604621400, [0x4ef2]);
  (768627011609048900, [0x5408]);
  (768891212555332700, [0x747e7d717edf]);
  (769156113372490400, [0x4e09]);
  (770222790152909900, [0x53cb76d684cb]);
  (771300967713238700, [0x7533]);
  (772665245353617400, [0x92d2950b]);
  (773216210934714350, [0x4f0a4f5b8349984f989c9db49e64]);
  (773492836284003400, [0x6d698336]);
  (774048393268463550, [0x77e5946b]);
  (774327333477221400, [0x8036]);
  (774607053939327500, [0x59655967]);
  (775168853169749900, [0x51c95bbe6dbc80008cd3]);
  (775450940803914000, [0x594e8c9e8d1e]);
  (775733826423961800, [0x554696c1]);
  (776017514557481700, [0x533a5340539a5982]);
  (776587316668945500, [0x9ec39ec4]);
  (776873439897048700, [0x67cf9738]);
  (777160384139844050, [0x4e0755847a46842c]);
  (778316466379951600, [0x695a]);
  (778899558411030900, [0x5fc661b665ed708e768b]);
  (779192384388939800, [0x4ee4]);
  (780076042568989600, [0x8fde9023]);
  (780372339082055260, [0x5ba35cb8]);
  (780967578934784800, [0x535373af74b0]);
  (781266532819621400, [0x626c63da6bdb]);
  (781566383119247100, [0x8c9d8d1d]);
  (782168794579585100, [0x68076a19]);
  (782774857040754300, [0x7da07eff]);
  (783998113884317700, [0x666880fd]);
  (784306280538058500, [0x5f0f]);
  (784615399795025800, [0x76c8]);
  (784925477562850650, [0x61ff]);
  (785236519804289800, [0x6a21]);
  (785548532537914200, [0x665366c9]);
  (785861521838807000, [0x4efb]);
  (786175493839273800, [0x65fa]);
  (786806410758600300, [0x886e889e]);
  (787123368234728100, [0x79e6]);
  (787441333526466100, [0x5b8f]);
  (788080313336343250, [0x610f]);
  (788401340899368000, [0x56685e995edf653e80158212]);
  (788723402369372300, [0x593485cf982d]);
  (789046504427516900, [0x68517ffc82cf86078a698bd7]);
  (789370653819934000, [0x9756]);
  (790022121922053300, [0x5218528959b9]);
  (790677861976669300, [0x4e184ea87565932b9521]);
  (791007351566354500, [0x59da]);
  (791337930379804500, [0x547d6853943594c19d519e43]);
  (792671283466751000, [0x6602]);
  (793007418237021500, [0x51455dcd5eb55f18]);
  (793344686684885400, [0x4fed51096749]);
  (793683096483309500, [0x5c556731673a6a5f]);
  (794022655383423300, [0x524d82729636968e]);
  (794705251890463200, [0x4f2050b370ae]);
  (795048305400142200, [0x661385aa]);
  (795737963306048300, [0x82738277827a85dd975e]);
  (796432410541329400, [0x5e38672f8853]);
  (796781451035306200, [0x543354345a775c1a697c6a136b4c]);
  (797131714090426400, [0x7f8a]);
  (797483208301170900, [0x742675868ca28cfd8d218d5b99ff9a8f]);
  (797835942352967700, [0x5bbd5bec6e2075288d64]);
  (798189925023480100, [0x632f7aef]);
  (798545165183916900, [0x55e3585e]);
  (798901671800366500, [0x5e935eab796f798e84c9]);
  (799259453935154900, [0x57065713]);
  (799618520748227700, [0x629a64ab8f148f85]);
  (800340545545576500, [0x7de37f18]);
  (800703522350634400, [0x97d397e9]);
  (801067821478484500, [0x8f9b]);
  (801433452598795500, [0x5f027570]);
  (801800425487691700, [0x51e159d1]);
  (802168750029321300, [0x9662]);
  (802538436217454000, [0x5236]);
  (802909494157107600, [0x5173594981f395dc96469678]);
  (803281934066205800, [0x637776f48d758d99]);
  (803655766277266500, [0x59376e2f]);
  (804407649518669200, [0x51b7633a96489673]);
  (804785721802659800, [0x9042963f]);
  (805165228899515000, [0x5b58606d6708]);
  (805546181741181800, [0x86799ed1]);
  (805928591385022100, [0x60e0]);
  (806312469015738700, [0x542c5ad45b2a66566689807d]);
  (806697825947337700, [0x4f505b885f9265bd]);
  (807084673625129800, [0x4edd]);
  (807862887669335300, [0x5f71]);
  (808254277601448800, [0x4fbf5b5a97cb97e6]);
  (808647205415437800, [0x4e434e457d937ecf]);
  (809041683244539400, [0x677279b99704]);
  (809437723366149200, [0x674f]);
  (810234540331066800, [0x5178]);
  (810635342470820700, [0x53625c4576e7]);
  (811037757500793300, [0x5baa61b264ce]);
  (811441798454493800, [0x5c3a]);
  (811847478524055300, [0x4e3e4f556d418209]);
  (812254811062818800, [0x52e4543e76ee]);
  (812663809587971300, [0x58c15c975d179091]);
  (813074487783236700, [0x620880e4]);
  (813486859501622700, [0x6e58]);
  (813900938768226000, [0x4f7f5c01]);
  (814316739783092400, [0x608560a66d0b72367bc48303]);
  (814734276924140300, [0x51ac6606]);
  (815153564750144000, [0x54c8679c858793269526]);
  (815574618003778300, [0x79d8]);
  (815997451614730500, [0x4e1d519c53f072397d728fb2]);
  (816422080702875500, [0x4e895bdf65f66642722d80838085]);
  (816848520581521200, [0x8c6a]);
  (817276786760721500, [0x6a806c60]);
  (818138861065112000, [0x5f6971b9]);
  (818572701224972000, [0x63d07bc082828868]);
  (819008431761867500, [0x56db582f5c27793e85fb97f3]);
  (819885630369151200, [0x865a865b]);
  (820327132190062800, [0x8944]);
  (820770591896849500, [0x4e8e7dda7ebf]);
  (821216026931787500, [0x4f73848b8523]);
  (821663454971279500, [0x5ea668376a23731b]);
  (822112893930063600, [0x6559822a9418949f]);
  (822564361965516300, [0x725b87e09ed8]);
  (823017877482055300, [0x5747]);
  (823473459135641400, [0x5f0072678054806f8457958b]);
  (823931125838382500, [0x7167]);
  (824390896763245500, [0x598d5d69]);
  (824852791348874900, [0x72d780af910295d695ef]);
  (825316829304525300, [0x4eb25730589e591689aa99a8]);
  (825783030615106400, [0x8b1d8c2291ce]);
  (826251415546348900, [0x6f5b6f5c8ce68d4b96cd]);
  (827194818769684800, [0x5d07]);
  (827669879045544700, [0x9ece]);
  (828147206920810300, [0x4f1159e88fdf9072]);
  (828626824147159600, [0x5c65614876d876e4]);
  (829108752790754600, [0x67507b797c4c82d1]);
  (829593015238333300, [0x6dee8fb98fd0904b908a90e8]);
  (830079634203450600, [0x8f498f6c8fb0]);
  (830568632732869900, [0x571f]);
  (831060034213112800, [0x575d58e966f296c6]);
  (831553862377171000, [0x75377d0b7eb9817e827e9a30]);
  (832050141311383800, [0x4e7e754c]);
  (832548895462487900, [0x672b679d6850903890a3]);
  (833050149644842200, [0x5085595859e56b226b61]);
  (833553929047838000, [0x9be89cb8]);
  (834060259243492700, [0x65e68af88bf8]);
  (834569166194239800, [0x6eb6]);
  (835080676260916700, [0x8d77]);
  (835594816210958600, [0x8cea8d28]);
  (836111613226802900, [0x5b5472697fc17ff0]);
  (837153289312628400, [0x520669607e3e7ee992b39510]);
  (837678224901242900, [0x53865e725e796b777b2694639573]);
  (838205930611327200, [0x621862308b008c0b]);
  (838736435834296600, [0x6a2a6a6b]);
  (839269770431832800, [0x92749451]);
  (839805964745971400, [0x5634594f675c6b7b]);
  (840345049609459000, [0x59745b5f5f555fd9707f71e67403909391279304]);
  (840887056356392800, [0x884d]);
  (841432016833149500, [0x81ea83bd91d7948a]);
  (841979963409611900, [0x75597686]);
  (843084947028270400, [0x56fa6e38840c904a]);
  (843642051533216000, [0x5167518573ed91cf]);
  (844202277088082900, [0x597390fd]);
  (844765658859908600, [0x943894ce]);
  (845332232613476400, [0x6821971c]);
  (845902034724940100, [0x53705f176709795a]);
  (846475102195838500, [0x57c3]);
  (847051472667513600, [0x54f2554f58ee58ef5de7785578a990ba913495ee9b5a9c7c]);
  (847631184435946100, [0x5ce45da05f90]);
  (848214276467025400, [0x4e0383ca]);
  (848800788412265200, [0x515a532f5b6360126c4786df8c6191cd9315951f9ee8]);
  (849390760624984200, [0x4e5d552f]);
  (849984234176965500, [0x56e058835c6f65906ee9705879a77a4e9896]);
  (850581250875616000, [0x5c395ec9665f7cfb]);
  (851181853281637200, [0x51415e1572b672c0]);
  (851786084727233500, [0x53ec66e67cd6]);
  (852393989334871600, [0x690d814a81d8]);
  (853005612036615300, [0x521952476566745f]);
  (853620998594053000, [0x4f94588067f3]);
  (854240195618845100, [0x5c9a5d506e2171157165928594dc]);
  (855490211895268300, [0x65978a138bad9b25]);
  (856121128814594800, [0x4ed45217535c806a80709aa8]);
  (856756051582460600, [0x9732]);
  (857395031392337800, [0x4f1761706c646e6f773e878d8fbd907c]);
  (858038120425366700, [0x533b5415544291ab970d]);
  (858685371875928500, [0x4ec0]);
  (859336839978047900, [0x4e955ce15cfd]);
  (859992580032663800, [0x664372c4]);
  (860652648435799000, [0x4f6952aa]);
  (861317102707665900, [0x56de623f7ae58108810983ab845b9769]);
  (861986001522745600, [0x4e9451a05bb07f5584dd85cd]);
  (862659404740880000, [0x4e8859225c4f646968a6]);
  (863337373439417800, [0x7d2b8377]);
  (864019969946457800, [0x5189866b87f2]);
  (864707257875234000, [0x4f0f51c652c3582a65e86e96857e]);
  (865399302159691400, [0x517d6f84737879ef7a4d9375952e9785]);
  (866096169091300700, [0x53f9550756065c0f5f2668cb]);
  (866797926357165400, [0x6c83798579aa851a85e48b938ba9]);
  (867504643079474600, [0x732e737b]);
  (868216389856361000, [0x6d858b5c8b6f8bd18c31]);
  (868933238804222300, [0x50296ea58cdc8d5090bb9130]);
  (869655263601571000, [0x76ae9676]);
  (870382539534479000, [0x65e58fe6]);
  (871115143543686300, [0x59515bd25cea]);
  (871853154273448500, [0x5b9c5fa162a46d66706b79a68b77]);
  (872596652122200400, [0x540f592f5fbd677f723d73879a449aa2]);
  (873345719295116000, [0x5ba4711871fe73ae744b9047]);
  (874100439858654400, [0x620e]);
  (874860899797176300, [0x5dfe6734680b68df6a3875c589bd89c8]);
  (875627187071733300, [0x4e1b53e2]);
  (876399391681124300, [0x5e95653b6ce889ba89c98ad28c058cc08d3a]);
  (877177605725329800, [0x4e157e7c7ee79ebb]);
  (877961923471432300, [0x540d578b6e106f38714a82bd8cc88d3e]);
  (878752441422143700, [0x54c188578aeb8c0f8c6b]);
  (879549258387061400, [0x6570657896ef]);
  (880352475556787800, [0x5d166c5d89e38b288c1f]);
  (881162196580049800, [0x64166447672a898f89c4]);
  (881978527643965800, [0x7ba17d047ea68a318bb893e1955c]);
  (882801577557617300, [0x5ff5607a61377d507ed390d1912d97f597fb]);
  (883631457839087000, [0x597d602165cb73ba74bd7960932f9519]);
  (884468282806138500, [0x53c960f3671f9f3b]);
  (885312169670725000, [0x59ec6615776382b9853c85f9]);
  (886163238637515800, [0x53c253c358a859485c0a6b3270b97cbe9ede]);
  (887021613006655000, [0x4e5851af5c406b276b5076fe7b807c21855999ae9a2b9a9e]);
  (887887419280966500, [0x52a852d555805587591a660a6caa6eec90ca98029876]);
  (888760787277842000, [0x4f105c5e5c6c5e9461c9670d676d82d38b708bae944494f896d5]);
  (889641850246057300, [0x59875a6668676a9c797a79bb821f9318952496e2]);
  (890530744987782000, [0x53d659545f1368ad6ec5706d72fc]);
  (891427611986058100, [0x51cc681768a873377c4d8cb88d37]);
  (892332595538049800, [0x6f47701f8a188bb0]);
  (893245843894377000, [0x4e4c51465de25df170cf]);
  (894167509404869400, [0x4ed571ee8dc38e8d90ed]);
  (895097748671101000, [0x5e785f526536678169756b78701a8ad68bba9002906999d59a7e]);
  (896036722706084800, [0x53525bfc5c0e5f7b5fb967356c426d6a]);
  (896984597101539200, [0x53ca53cc5b855fc560c56f5877e97bad8003821c86cb95ca96149634967096d9]);
  (897941542203154200, [0x54b87c8982d7]);
  (898907733294327800, [0x574e58755c188c469a659aa59b3c]);
  (899883350788864400, [0x5a055a6d664f690169e8854a865e]);
  (900868580433165500, [0x656367e574d274da830592149234949e94c3]);
  (901863613518482400, [0x5cfb62dc67ef6843686269686d4b6e2c709c715272ac8a898aed8b7d8c15]);
  (902868647103832500, [0x4e5952b352de5404767e812b81318c7990099078]);
  (903883884250234200, [0x501953f36dfb]);
  (904909534266953100, [0x59bb665770df7159]);
  (905945812970507800, [0x6c816c9f6e9d6ed480e58a548bcf]);
  (906992942957237400, [0x521b527560ca62ec678469cb6bb77b198fce97f69a5a]);
  (908051153890291100, [0x4e2556b466dc9ce59e1f]);
  (909120682801965800, [0x4e615bfb5c0b69d075be8f9e8fad9109]);
  (910201774412387400, [0x544a6b46733f7db87eb695d59619]);
  (911294681465606400, [0x576a5a075b0c6df97f8c99b39a70]);
  (912399665084264900, [0x4eca57f759995ea7626767ab69536db5821e9e1e9e3e]);
  (913516995144077400, [0x53485e1b62766dde741b80c681bd]);
  (914646950669470900, [0x6d516e3e7469770183b990209152]);
  (915789820251833000, [0x62d4652f9095]);
  (916945902491940700, [0x5bbf5c79680e681668f26adf6d5a6d748f098f7d8ff0924994c999289986]);
  (918115506468259700, [0x4ecb54135687624e793a79c980b28db3]);
  (919298952232960000, [0x516d5c7f5dbc78a77b1b]);
  (920496571337631600, [0x541f56e2571857a35e905eec]);
  (921708707390866200, [0x52bf52e25a745b306da76ee86f976ff170e8718a71c186ee883b886b91879c329ccc]);
  (922935716650047600, [0x4ef0534f5354572d744192c5950c]);
  (924177968649903300, [0x4e3876df805a8328929394e8]);
  (925435846870589400, [0x4f0152005f5d610862d366f97518886390aa]);
  (926709749448332300, [0x8a5e8bcd959395f4]);
  (928000089931923000, [0x4ed14f0d4f57518d52075824591c5d196216]);
  (929307298088658300, [0x4f5952fa59765e265e2e5e365e6b5f2979be830e83969918]);
  (930631820763660400, [0x621f65f766e06b8a6f6d7a917aaf8fc89081]);
  (931974122796874500, [0x632563ee665466c468386cca7c7b84ec8a088ba18d0f8d62985e]);
  (933334688002452300, [0x51c05371542b638c6de8820d]);
  (934714020215686000, [0x69777afa7b607e8c7eed8cde8d4f]);
  (936112644413160000, [0x51dd58065a9b5c3d5fe7614e618276e182399192]);
  (937531107912355600, [0x4f54517b536057285f845f9167aa69cd6c417dd27eea8b078b5a8c2d8eab964d990a]);
  (938969981657565500, [0x5240527453855c065c075ef3655765e967dc6ac36bd47d2f80cc83398b028c138d25]);
  (940429861599680800, [0x4ea4559d5a675b245b375de162db67d470bc7149714c871c91ca91cb966a9a0e9a91]);
  (941911370178195000, [0x5c385c4d5f395f4863a16539746d76fc908891c7986598a2]);
  (943415157914648900, [0x52a95473575b583158c759145c9162a563886e1d766b76727ad97db27f51]);
  (944941905127727800, [0x4f38558a592e5e1660df65e066317121745b781678da7e47]);
  (946492323781324400, [0x529d52f853f7578258f658fa67146e146f01865f86c79396950196be96e39762]);
  (948067159478138200, [0x6c9b7275727d73b073fe877689d28a2d8bbe959495f59d729e4a]);
  (949667193612782300, [0x535555ae5c905e8f65c168f16ce5732b749076d08c93907590c19a649aa79b319e7d]);
  (951293245699960400, [0x5e02742e749c768479417a398b398c28]);
  (952946175895081500, [0x51b6536654485c1162ff63d66bd3758f829284bf968f96a8984d989d9e93]);
  (954626887726719500, [0x505c58a959dc5bc55dee6c897a57813881c98f2f8f918fa98faf958395ea]);
  (956336331062649600, [0x4e134f835225522b53c856f4570d574a5c085f805fcd6986704c70ef7d797ee2867e87668a618be98cbb8d39901f]);
  (958075505333836500, [0x5b9971667428742c87028a628be29354953796b696b897ad]);
  (959845463043776400, [0x54c05c0475917def7eac8230826696bd96cb]);
  (961647313594044400, [0x4e4e501c53a258995ec25f6d62f4699c7246728174f778917dbf7ef582d4858488c18a0a8ae48baf8c148ca18d22]);
  (963482227460864000, [0x4e0b4f18512a58305de86229622c63a87b547d177e797eb17ece7fce88218ff7]);
  (965351440762079300, [0x52a152d954c95ffd6050670b6c146c23706f71c87df47e937ec37f289632980c98829d9a9e57]);
  (967256260259148700, [0x4ef74f4d50f9516e53eb56ca60dc611f62f36d357e5a7f2d836b852d]);
  (969198068844858800, [0x4f5c52c95858604263a5650077e27dbd7ef07fd87ff9803f8096819181cf97069f9c9f9f]);
  (971178331574476800, [0x58f35ae95ba05bf55c425c6462e564c165a76bbc7372749e79017f617fca83b7869588369022958f95f0]);
  (973198602306228700, [0x53775578562f5eca6298649265626cb96cdb7109754f7a0080878b588bc68eca8f669f13]);
  (975260531026502300, [0x53ea593a596a62976cd76d8c6e67701b754b7785781a786f795d7dac7ef6817981ba834388ad89728fed95d096179b54; 0x9f529f7f]);
  (977365871946285700, [0x55bb579258d85bb55c3f5de968666a3a6c5c6dcb7c9f7d687d9c7ed27efc81f48463978f9dfa9e6d]);
  (979516492468381900, [0x4e0a4e60517c529e5b645c2465e76b4779817fd2820a8a738be68df38fa6925e94ba983b989199529976]);
  (981714383140259500, [0x4e11503c51805b575cb7609d62ef65996600669668af6d6e753b756b773c7aa67ac77b517bc982058427856d88d48abf; 0x8c03919c91dd948896fe97279bae9c9c9dd79e25]);
  (983961668725465300, [0x4f605458547c54e15d585db85f627126769979e97a337a697e547ec7801c923a94b099d29a79]);
  (986260620547935200, [0x52f062b162e864a56636704f705d751a7cae7ce77e417fe9800c82de83cc8986923f94bf99b49a6f9c579cde]);
  (988613670288954600, [0x54465df75f0362a26436665a68c468d56cd3707070db71e571ed7487783479ba7e617ee382be8335836f85e5891a8996; 0x89c693ac9550964796b4]);
  (991023425446860700, [0x4fd0538953b264d26ecb7ade7af67d1a7ea77fe699a5]);
  (993492686705897800, [0x4f1e501a509850b252ab53205bb45cd95e2d5f705f79604b6200624063c6671568a2693f6b676d596ea26fc2730e7375; 0x73cf743083c187c68cf48d56]);
  (996024467504326900, [0x4ea751b353d95ce55d22655866a26c7a6d177522754578147e697ef38d048d3d959295f2963b9ebc]);
  (998622016144652800, [0x52b252c153d8602a65486dc76f14708972107ca47cb58a2a8b8a8bbf962a981098849a459a71]);
  (1001288840852869000, [0x4f3c4f4f4f654f7650c951fd5a9a5f53605561cb621a654c657567f5680568406b626ce16d3b757676b176ba78a37a20; 0x7e887f2c80a5835085a685d5972d97449a629a74]);
  (1004028738271680500, [0x4e8b532158515faa624b6307635f640d663c665d6b656f2b6fb373e979fb7adf7d427ec882af8700874987ec8efb8f72; 0x90599065]);
  (1006845825968350100, [0x515459625c3e5c605f255f4c6ca36d456dfa6e5b6ed5704370ab77bb77ff79268574860a96ce980a987c]);
  (1009744579655675300, [0x4e0851fb541157405915606264ca680f68c969fd6a3e6b046c5b6c8571647262757f775b795c88818a558bc48cc18d32; 0x9016]);
  (1012729875970643400, [0x534354ac560e57505bc263a2662067c4784078d0790e7f627f77803d8058810a8ecc8eeb8f688f788fa8932294b196de; 0x9e21]);
  (1015807041837318700, [0x516b51f35382538453bb5c165e7c5ee0623465c56cbf70e67169719f71c372d0730a75d57c927e5e7ed582cc8346834a; 0x84078471852587ba88968f158f7b9012905e925194c2]);
  (1018981911668776900, [0x4e73519554cd5703586c59d3636763f466f068da722a728076967d307ec683e18b168c218ce18d53900191d894899655; 0x965d97cc97e797ff9edb]);
  (1022260893951076000, [0x514052d652d75f0165566c766d3c6da86ee26f32700572967aaa7e6a7ed88010831c836688d88b108c27901490b892f0; 0x9502961f968a]);
  (1025651049118644100, [0x59cb5db75f3160ac61f8631a646f65776db26fde70ed71b172ec736874707b3a7b8b83ba859b864f865c8854891291c9; 0x929c93479534958e95f395f996949b279b749c829daf]);
  (1029160181099771000, [0x523b52fe536753df563b573b62366237679069126df772ee734574f676ea81e5836184b28cc78d44914d947d94bb978b; 0x9a419a9c]);
  (1032796945516858500, [0x4e194e5f4fac510252ad5bc75cc1607660e162b967d37e097f197fdf85b0874788058a368bc395b1960596cf96db9f20]);
  (1036570978315143200, [0x4ed74f5a51a5533959ff5fcc5ff160706155616e66b968d2732a755479f07a317b037be47d8f7ee57ffb843d86518c6c; 0x90dd92ae938293c8947e94fe95419867987e]);
  (1040493049630471300, [0x4ed84f975191520a54e956765b935ea5624165556c886d526ef86f3e6f417720772f7761778780c482478acb8ae78bf7; 0x8c108c8c8d819701973d988d9a5f9aa4]);
  (1044575249082496900, [0x51b55e555e7d6253636263db680868e769396c6a6cbe6cc17252725f7b0b7b4d7de97f13803782c784668a528bd28de1; 0x8ff990b597de97eb9821988999969ae6]);
  (1048831210524376400, [0x4ec74ecd51ed5439547557085c985cf45e9e5fd26001614b619166b468c06aa270bd71be756a76c677db79407c07804c; 0x807780c382ae83dc88d98d708df58e1090069808987b9f90]);
  (1053276386781459800, [0x518a518c52035212528352b152f5534a53a5594b596e5feb661467956e7f6f8e6fd5713172b9733674ef750c7a377a81; 0x836a84c08a9391e7948f]);
  (1057928388344949200, [0x517151fa530554e8572f58d15bb35de664ad675f6bd56ec76fd2701570f7718f724c75357562786e78ba78ec78f779bd; 0x80ce81fb88708f4d8f99926493de947294a9955b957695a995fd969796fb984c98989a559a84]);
  (1062807404761892400, [0x4fb551bd595659ae5c415c4b60d562cd63aa676f679a6a316afb6c226c2b6cf36de16de66e9f6fe0723b734e776679c1; 0x7b4c7e827f9e88408a718bdd8ca88d278f058f82907f9753975a]);
  (1067936734200647400, [0x4f194f244fde50b7523a534153e0540154265531558f55be56b35925599e5d6c601c613f6190626362d062e9630964c7; 0x67af69956d126f5e7051742274dc758a77f6789a78ef7c727db07efe82b782cd84bc8521886588c588dc88dd8aa48aa6; 0x8bef8bf58fdd9055921093d794a494ff9650985898fe9970]);
  (1073343456327675000, [0x4e2b4eab515c59575c815dfd63c9647866416b726cbc6f0277eb77ef7cb17d137e6d7ebe80d6811a81738327888b8af1; 0x8af68bb38c0c8f2a8f6e938f95e19610]);
  (1079059297711669900, [0x4fd75047519953a654d954ed56725a235beb5ec85f1b608964a4657467566a5970c370f472b4733473d9753179d27b3c; 0x7b977c607cb97d557dde7e467edd7f0e7f2a7fc5813e84c186058edf8ef88f6f8f7490b1966496f698c498d89a579a8c]);
  (1085121759893313300, [0x534954105435544059cd59d75b695c315cab5f0b5ffb62bc62d964b06593659565ad65b76bb56e176e436ef26f9c703e; 0x71ac7a977b087b147b467d277dca7fbf8236826e82a68340854986068eac90e2947094a598f2996e9b429c789c88]);
  (1091575612007070400, [0x4f7050a8510b513252425291533f5904595a59a45df25e275e405f8c6162620a640f659b65e2681368e06bc06bc16c74; 0x6d196d5e6d896ef46f2a70857396770b7a3d7b207e2e7e377f157f29803880738089831784b88655874e880d8f5f8f70; 0x8fe59057907a962e98ef996d9d3f9d609e3d9e449ed4]);
  (1098474899155765500, [0x4ea24f2a50215076507d514c5151517752ff5351543c554a57a0585758895938594259505ba65ced6043608c629f62d6; 0x64766d536d826d886dd66eaf6fc06fc3707674a9786b7bab7c2b7e967ea47f3a7fa17fa88006819d81c2822b827d8662; 0x8a878cac8d238ffd90a293b0955299c199d09a739a7b9bc99ca4]);
  (1105885696371137800, [0x4e0e4e144fc54fcf500d502a558256a356c25939593e5a045a415a495bc45e7b5ea0609f642d655e668467466760687f; 0x69ca69d36b646cfc6f51707c719972af73527457745a77e37d737edb7f728207829d82df88f38f9c917792c194dd9645; 0x969b96c9976199359a6a9a8a]);
  (1113889967138491400, [0x4f344f434fd14ff1514d51f051f954c4560f5bdd5be25d4c5deb5df35e015e185e1c5e5f5e635f856302639b63e963fd; 0x652c66ae678b6a0a6c906cee6d4a6fc170b7712f739173bb73f2743f74a3783a792a7b337b7e7c3d7c3e7d447ec47f3d; 0x7ff3838e84038cbc8d34901790809209929192c794a094a194b594e39b929c8b]);
  (1122591104837454300, [0x4ebf4ece4f0e510453d7579b57d4586b592d5f9e601462f1632863cf644a6524676167b66854689d690569796beb6e4d; 0x6e9c6ece6f88731c73a973c975f477bf77dc796d79cd7a2e7bee7c438365845189368a668b208bd58c238cfa8d1b8d5a; 0x8d638d8b8da88e058fa38fb19026909090c593339530965f96c098119817987d9887990c99759b139b22]);
  (1132122122817886900, [0x4fc14fe3508d51e05239524a524e52be535e54035a1b5a315aaa5abc5b8c5c825e7e60a062116392649e6789686369ad; 0x6a946b206b6a6c556c726ca56da46daf6ecc6ed1701d7481776279487a777aae7d617d6e7edc7fe57fee81ed82a98398; 0x84c48a508a8d8ac78b018ba48bc88c088c128c488d088d6090e6914891e3925b949394c595ad95e595fc95fe964c9803; 0x9812987798819bab9c9b9d269e2f]);
  (1142658174383669600, [0x4f914fa850d153e655b7567458f959a55f085f7c620d6280628464e2655b6582672d68d868f569ff6cbd6d3d6d486dd8; 0x6e1a6e236e5e7011711a72477410746374837837786c787c79577bc77d107ebd7f387f69801782a58401841d84df858a; 0x863f8aa88aaa8bf28bf48eb28fc78fd4904e9122926c94bc97609a439aa09ae19aef]);
  (1154436477949307800, [0x4eff4f9b51d151ff525d526552d053ee545c54d7556655da5617562957a658be592459dd5acc5b095c1d5d0e5d345ed1; 0x5f2f5f4e627062bf64fe666466876691682a6a796ad36c276c946e4a6fa770b8716872c27529762478027ae37bea7d21; 0x7e1e7eba7f1f80fa817f88f4899389c58b0e8b9e8c1c8c338e448f388f9390ae90b990f59112917693e2947f9556978d; 0x983998939905997c9d619e499efd9efe]);
  (1167789617211760000, [0x4e324f09502c505a52fb530055a75986599d5c48607d60d160f262216248629662a162e262fe638464056479650f652a; 0x65bc65c36627662866be66f46700684868696a016c136c826d476d606e6b6eda6efe6f866fc9707870c27113721b7230; 0x752c778479687b527c977da27ef87f817f88801880a9820c832b853a85fa86ed88a489e689f88a798acd8b808be48bfb; 0x8da38f268f879083914c91e9925792839310947c949294b394f39523952595c895cc95f19611968b96b997a09f549f80]);
  (1183204685194486000, [0x4ec54ef64fa64fef507550c551c752a252f154235af15b195ce65dc55dd25dd460af60f9612761ab63e3648264906491; 0x65f167d867ec67f4683d696369826a906b3e6ce06cea6d946dda709270ac73d174cf75047583773a782678977a3b7b4b; 0x7b5d7b8f7c377df97f0780a0817881e781fc820082b882c183518404841884ef868a86e48aee8c188ca78cb38cfe8d2b; 0x8d308d5c8eba8fd8908491199149927b929a933e9370937e93e8942e94eb94ec953a953e957097009a2d9a989c0d9cc5]);
  (1201436840873881500, [0x4e4d4e564ede4ee54ffa50d6526a5412542754365450548e54bd5588575157c25a255a7f5bd35bde5d825e615e87604d; 0x6101612b61c262c562c662ce6316638f643a64d4651c659f65ec6655668868b3698469876aec6b166d0e6de56e0c6e3a; 0x6f336f7c70c170d9719271947206720d741a752d756675db767876c578b079e37a707aa57aba7c417c5f7d317dbb7e31; 0x7e987eb57ec27efd7f3580a4812f819a828a8367839e83fd8446852c859c8822886c896f89b289d08a638a728ab28afc; 0x8b1b8bb28be38be58bfe8c168cda8ce08d498d548efe8f7c8fe9903e904190509087914b917f91c0928e931a93d193d8; 0x94ee9535955d9640966996aa96bc9805987998fd997199809a4a9a859b1f9b919c299c8d9cd09d5d9e1b9e459e73]);
  (1223751196005302300, [0x4e484f6c4fea503e504e50bb50be513751a251aa5477561f5659578457ad57d557e1585a58df596059ab59b25aaf5b34; 0x5b555b5b5ba15be95cc45d4b5da75e3b5e425e585e7a5ee95eea61f562526291629262ab6458651265226670677c67a5; 0x680968c26924696b6a2f6aa36adb6aea6afa6b0f6b596c1f6cad6d396d466d9e6df66e5f6f316f3f6f62707d707e7119; 0x716e756c757276bf77fd781c782578457aff7b717c747c7d7cdc7ce07cf47d837dd77e087ee17f038043810f815081df; 0x822c8235827f829082c4837b84268438847685c98788887288e4893289838ae18b2c8c258c2c8e48901e909791049165; 0x921592269240926692b792b9931b935b93b393dc93f5949b94ae94b294be94e795009508951b953b954d955798019875; 0x9a019a379a8b9a9a9b839c869df29e6b]);
  (1252519403250480500, [0x4e104e244e864e9b4fe64ff3504851145169518851bb51cd51fc520152205224522a5261531d5363549a54a354df5549; 0x557c55b2584d58855a135a325a6a5aa75ca15ca25e375e625ebe60206065607f608460e660ed615a617761a861cd61d4; 0x621262c262fd642c66356652669766b166ec67276753677567b067ff6886693d69a869b46a286a7c6aac6ade6b216b24; 0x6b376b5f6b846c396c926ca16cf56d276d546de46ee46ee66f136f6f6fe16ffe70647130717371ce7228723f72f87329; 0x74e27629763f766d7750775e77a7783b7856786478c5793179497ae67aed7b0f7b2e7b507b907ba97bc17c6e7cfe7db4; 0x7ea07f007f54803b8042807680e7811682708271833883c0846984bd867c86a388848956895f89bf89cc8a348b0a8b14; 0x8b4f8b668ba58bc98c0e8c118cbd8d3b8deb8df78e7a8fd190fe9143919a91f9924592e4930193df941394339495949c; 0x94f29504951e9566956d96f397429792999799db99f19a0f9a2e9a769a869a909a9d9e879f609f86]);
  (1293065914061296900, [0x4e264e474e5c4e714e824e924e9f4eec4f304f5f4fc34ff85011508851f85306532a536e5406542e546254aa5537568e; 0x571c573a5764578c57a257cf57d257da580b5815581d583458ae591f592059ca59d25ab35ba55bf95c0d5c945cd25e76; 0x5ed65fd85fdd6002601b605a609460ab6128616b61a962fc6323634c639964006401646d64f1651965c66634664c667e; 0x66a866dd6726675e677367fd680a683e684568466868689368f9698969b769ce69e069f36a3d6a896a8e6ae76af36af8; 0x6b126bcf6c5e6cef6d336d936dab6deb6e326e866f4b6fb66fee703270ca70d8710a711671b571dc71e0729f73a273e7; 0x74a874e0751176a477077741775c7830784e78be79b379c67a087a1e7a767a957a987b1e7b287b2a7c917d067d077dc4; 0x7dd87e3b7ea17ea57ef27f047f447f947fb9808680b4816981c0823182388259829182e184978517855685b785dc8629; 0x863886c9876087af887f88fc89818a9a8ab08ad78af78b2b8b9c8bbd8bee8c018c028c208c2a8c828caf8cbf8cc38ce4; 0x8d058d2e8d318d388d418d588d678ddf8e478e668f458f959011909b90e790f491169163920092389239923e92a592df; 0x9338937a93b59419943a943e94af94b994c094cd94db94f194fc951395179553956b95ac9606960b964496859708970f; 0x97d997ea98af98d2991a995499959b299b329b449dc29def9e5e9e699f949f9a]);
  (1362380632117291400, [0x4e524eb34ec34edf4f2b4f474f884f8b504c50ac5106512151555156515751925208522d523052445256526952ac538c; 0x538d539953ad53c153e95416541d542d5431543b5464549d54af54da54ea552a55565561558355ec56245627565d56b6; 0x574f5844589258de59975a0c5a1f5a925ad25b215b655cb55cbd5ccb5d035d0d5d145d2d5d475d5d5d815d845def5df0; 0x5f585fed6016603f609a60a860b260e8614a6158616861b761cc620f6232628a62e662e764206421643d646764bc64c0; 0x64f0651465ab65ef660f668266ab676a67d267d9680c690b6930696669c16a816aa96ae86b876ba46bb36bc26bcb6c32; 0x6c336c616cd06ce36cf16d0c6d4d6d636d6f6d956e346ecf6f786f8c6fae708070e970ec70f9715e716c71a071b371f4; 0x71fc723872de7317737073c8747774a67548755b755c75c2772978007827789f78ad78d479e77a147a517a617b477b4f; 0x7bf77c277c9d7cd97cf27d0a7d667de17de67e527e9c7ed97f067f0c7f177f217f2f8046804b807e809c80d7815581c6; 0x81fe82028237828e828f82aa82c882d282e0834f8352839383a083aa83b383b683c783cf83d483e583f9845a8473847a; 0x8494853b8572859f85a885f68604867b867f868b86ce87138722877d88068823887e8935896689b789d18a078a108a8a; 0x8b048ba68c418ca08ca98cba8d1f8d298d368d748db18db28dd68dda8dde8e608e928ecb8f0a8f3b8f428f548f628f67; 0x8f798f7e8f908f9a8f9f8fc28fc48fe89000900b9058909990b090d790dc914691d491ec91f7920192049223924d9278; 0x929692a692bb92c89306931f9320934b936c9376938a942b9487948d948e949994ab94ad94cb94df94e294f095059511; 0x95169518952c952d95369539954c9551958295bb95cb95e295e9960e961596b096cc97659768977397769780985b98a0; 0x992e9b519cf69d899e1d9e229e429e519f17])
].
(** prob_emit.go:45869-46559 probEmit, state 228 *)
Definition emit_228 : list (Z * list Z) := [
  (128304821853187430, [0x6210]);
  (327025507544679870, [0x5bb6]);
  (335544472128850120, [0x7684]);
  (358996317461798800, [0x6b63]);
  (368074712412293750, [0x5ae3]);
  (368724768872603060, [0x660e]);
  (388888503481927700, [0x8aaa8bf4]);
  (410804716083430100, [0x548c]);
  (426551459328755400, [0x4eba]);
  (431721596766444500, [0x8fdb9032]);
  (436315306285147000, [0x4e2d]);
  (443397911542008200, [0x519b8ecd]);
  (452015681166113500, [0x5f375f3a]);
  (453527044947118300, [0x67436b0a]);
  (463108837236841600, [0x534e83ef]);
  (464232444563534200, [0x529f]);
  (465941887899464200, [0x8fdc9060]);
  (467097970139571800, [0x50995907]);
  (468267574115891000, [0x5143]);
  (471860775038497300, [0x4e3a70ba]);
  (472472397740240900, [0x6c5f]);
  (486264712060791000, [0x56fd570b]);
  (489849325238104600, [0x8fbe9054]);
  (491319939977074150, [0x4e4b]);
  (493567225562280050, [0x6625]);
  (496644391428955400, [0x5cb1]);
  (497428709175058000, [0x6df1]);
  (507354204984592100, [0x5e736cb3]);
  (508227572981467550, [0x4e00]);
  (509108635949683000, [0x67979806987a]);
  (515503508409710400, [0x59e5]);
  (521330399222108000, [0x5f90]);
  (529668560116013100, [0x96e8]);
  (531866450787890600, [0x5b815be7]);
  (535256605955458700, [0x6f9c703e]);
  (536412688195566400, [0x4fe151b2885d]);
  (538765737936585800, [0x59d368e06c11]);
  (539963357041257400, [0x6587]);
  (542402502353673300, [0x83bd]);
  (547466875635548800, [0x54689031]);
  (550098606467286100, [0x59275c71]);
  (552801473706078000, [0x592a]);
  (554180805919311600, [0x9752]);
  (558436767361191200, [0x4e09]);
  (565959109484950000, [0x590f751f]);
  (567533945181763850, [0x6108]);
  (570760031403586000, [0x715c]);
  (575803116766275200, [0x864e]);
  (577542291037462100, [0x65b0]);
  (582949013164489700, [0x660c]);
  (586723045962774400, [0x4e1c677196ea]);
  (588664854548484600, [0x4f57]);
  (590645117278102600, [0x4fee]);
  (592665388009854500, [0x70af]);
  (594727316730128000, [0x9f8d9f99]);
  (596832657649911300, [0x76d684cb]);
  (601181168843885150, [0x88e191cc]);
  (603428454429091050, [0x517081fb862d]);
  (605727406251560900, [0x8d77]);
  (610490211150486300, [0x87fe]);
  (612959472409523500, [0x606a7693]);
  (615491253207952500, [0x606c]);
  (618088801848278550, [0x5e745f647199]);
  (620755626556494700, [0x5f6c7130]);
  (623495523975306100, [0x524d829c856a]);
  (626312611671975800, [0x6d0b]);
  (629211365359301000, [0x4f2f]);
  (632196661674269100, [0x6e057d057ea282f1]);
  (638448697372402500, [0x4eae5efa8f098f7d]);
  (641727679654701600, [0x4f51591a6e2d777f]);
  (645117834822269700, [0x7965]);
  (648626966803396800, [0x521a525b594b596e62186230767d971e98db98de9b6f9c81]);
  (652263731220484200, [0x51748208]);
  (656037764018768900, [0x91899d3b9e3f]);
  (659959835334097100, [0x65f666426708]);
  (664042034786122600, [0x5e865fb761766d778d0a8d5e8fc19077]);
  (672743172485085500, [0x5eb868676a9c8b198c26]);
  (677395174048574860, [0x624d65e5]);
  (682274190465518000, [0x67148543]);
  (687403519904273100, [0x4f1f5049753877e58d859577957f982498909a5b9a7f]);
  (692810242031300700, [0x6ce2]);
  (698526083415295500, [0x514852c75a1f5e7f5ee36d5a878d8fb9908a]);
  (704588545596939000, [0x4f8657ce58eb590d6765]);
  (711042397710696150, [0x514b540c592963f4]);
  (717941684859391200, [0x4e9451685982653f6cd578ca8a008c9e8d1e9b41]);
  (725352482074763500, [0x4eac5229537f53ef5f006c406c496f227fd4958b9707]);
  (733356752842117100, [0x53c253c356fe571658f05a466751689374a780728fc89081]);
  (742057890541080050, [0x4e5f4e9153cc548f653e6717672c738b82b38a6096d996f2]);
  (751588908521512500, [0x514951b053435b7a5de95f977acb92fc94a29633967d978f98a898ce]);
  (762124960087295200, [0x4e8c5065535753f056686709679a68656a4b6db56dee713673ae73ca7405744b746f86548cb48d358fd19ece]);
  (773903263652933600, [0x4e194efb4f5553475c9b5cf65e945f1b61c96656668968116a396b666c3871d57a1a7ae07dba7eee81f38d8a91d19396; 0x950197dc97ec9a2b9a9e]);
  (787256402915385800, [0x4e664ec35175529b5de5600061f766f8677e68a76d016e906f548def8eab9759975c]);
  (802671470898111600, [0x4e1e4e49509153ca541f5b895de15f6a66fe67686770694a69ae6bc5738975317db17eb27fa98363900290699091980c; 0x98829ad8]);
  (820903626577507000, [0x4e30516251ef51f1521d52ad52dd560e5e845fc35fe0626c63da67cf697c6a137487798f7e097f197f8e805e80dc838a; 0x884c8c5095fb]);
  (843217981708928100, [0x4f18512a521252835706571357fa5b585b665b785f3c633a65b965ed6606665a66686cbb745c77f37a467a4e7dad7e69; 0x7ef37ef47f8a7fbd82738277829d886188c588dd89d28aa08b008bda8c0b905398969d6c9e4f]);
  (871986188954106100, [0x4e344e8651c653cb543e5578559c562f572957645947597d5b595b6b5b9d5b9e5be65bf65cf05ddd5f6d614e6444651d; 0x655e66a2679c68816e146e216e966f01707573cd7434745e7545793e79e67b937bc07c597fb281e8828282b882e583ca; 0x931a94ee95d695ef9748]);
  (912532699764922700, [0x4e3d4e504e9a4e9e4f264f27502b509651125251528d535a53d15408597359835b505d695e065e725e795f815fb55fd7; 0x62ec62ff654f656c65976602661f6649664b673468856a026a386c886c896c9b6d3e6f6e70c873ba73c2740674bd7530; 0x767c795679c07a0b7bb47dbf7df47ec37ef58521898b89c18f2a8f4d8f6e8f999009901a907891cd92d293ae950b9547; 0x962198c698d998da9b259cf49e239e979f619f84]);
  (981847417820917200, [0x4e014e154e1a4e3e4e7e4e884eca4eea4f204f384f5050b351005176519151f9531653715409540d54f2551056e05723; 0x5728576158025889592b59d459ec5a015b5f5b8f5b975b9c5bcc5bf05cb85dcd5e8f5f255f4c601d603b60466052606d; 0x6377658c65fa660a6653666e6676667a66c9678167f16960696d6975699b699c6b236ca76caa6cf06d256d2a6d696d9b; 0x6df56dfb6dfc6e0a6e106ec46ee16eec6eff6f206f386fe470fd71e7728173af73b273e0742a743374b0768b771f7720; 0x796f798e79b979d17b607e3d7fa47ffc8000801080188056806a807080c48209821f822a826f827a82b1835483b283f2; 0x849984ee858785dd884d8a698b108bd78c278dc38e8d8efe8f7c8fea90a691ce934b950596c496ef9756975e999999dd; 0x9a649a7c9aa79db49e64])
].
(** prob_emit.go:46560-47491 probEmit, state 229 *)
Definition emit_229 : list (Z * list Z) := [
  (271697612146410600, [0x738b]);
  (272400740043217840, [0x4eba]);
  (330107166998509530, [0x65af]);
  (339390673043480630, [0x7279]);
  (346657214695454600, [0x796f798e]);
  (347525886135086330, [0x5c14723e]);
  (356654722674932500, [0x5fb7]);
  (357661135561115050, [0x62c9]);
  (384863128170737220, [0x514b]);
  (388676628391499030, [0x88e191cc]);
  (405501800766168200, [0x4e16]);
  (433090053318230900, [0x592b]);
  (437793271272084300, [0x7f577f85]);
  (444795069962303900, [0x886e889e]);
  (453396357428308000, [0x5e1d]);
  (454359060411024400, [0x897f]);
  (457179602995496800, [0x4e2d]);
  (458557207749908700, [0x79a7]);
  (459316705071653200, [0x5b97]);
  (466835076499149800, [0x52d2]);
  (474372402622166000, [0x4e9a4e9e]);
  (476462030894807200, [0x5229]);
  (480305701578914500, [0x65e5]);
  (482524493076450800, [0x8fbe9054]);
  (484466301662160900, [0x5c3c]);
  (489664454228202400, [0x5cad5dba]);
  (490528763843804400, [0x5b89]);
  (495694649671195400, [0x6210]);
  (502502570893023000, [0x683c]);
  (505481937240900800, [0x8328]);
  (511720966500828900, [0x5c71]);
  (515437241139168100, [0x4f866765]);
  (517235042368708900, [0x7c73]);
  (522352437921179700, [0x4ec0]);
  (525012812472977300, [0x66fc]);
  (527745901844674500, [0x79d1]);
  (530297060610415400, [0x6bd4]);
  (531075274654620800, [0x57fa]);
  (532385909405150850, [0x7433]);
  (533981687949012000, [0x59c67ff0]);
  (536149794555144300, [0x9813987f]);
  (536975108730816400, [0x57ce]);
  (538646456828190400, [0x5854]);
  (539776412353583800, [0x9ad8]);
  (547449791776722700, [0x6797]);
  (548684375358952700, [0x5dde]);
  (549620419634909000, [0x99ac9a6c]);
  (550249352525665450, [0x7d0d7eb3]);
  (551519210859378200, [0x91f59497]);
  (552160238695470100, [0x5947]);
  (559151437615341500, [0x6258]);
  (559843481899799000, [0x5c9b5cf6]);
  (563018351731256900, [0x5b815be7]);
  (564099443341678500, [0x5ddd]);
  (568544619598761900, [0x56fd570b591a]);
  (569687489181124200, [0x54c8]);
  (570456723743439700, [0x4e01]);
  (572406103211539800, [0x5a1c]);
  (575606376320157200, [0x5c0f]);
  (577245757297724900, [0x666e]);
  (577659836564328000, [0x5e03]);
  (578493174720242500, [0x5357596559675ec9]);
  (581035684556823500, [0x5170751f862d]);
  (583204967017949500, [0x4f0a739b746a]);
  (586323259761618200, [0x5b9d5bf6]);
  (587232356931743400, [0x5f97]);
  (588611689144977000, [0x4e07842c]);
  (591906104716912400, [0x51675185]);
  (592867650586856600, [0x8def]);
  (594818932009214800, [0x6c11]);
  (595312760173273100, [0x6d77]);
  (596809047440944250, [0x74e6]);
  (597312826843940000, [0x4e1c6771]);
  (597819157039594600, [0x660c]);
  (598328063990341800, [0x5821]);
  (598839574057018800, [0x798f]);
  (602495333630398560, [0x5730]);
  (603564862542073400, [0x767b]);
  (607961174884185000, [0x6069]);
  (609091130409578300, [0x900a905c]);
  (609660932521042100, [0x529b]);
  (610810370463615600, [0x829d]);
  (612559686208367400, [0x5df4]);
  (613149658421086100, [0x9633967d]);
  (614340148671718000, [0x5361]);
  (616764509832717240, [0x6c34]);
  (617999093414947200, [0x8fdc9060]);
  (618622148390010800, [0x7406]);
  (621153929188439800, [0x83b1840a]);
  (621797018221468900, [0x4f26502b]);
  (625744899318847600, [0x56e0]);
  (627778867742559800, [0x6cb3]);
  (629158199955793400, [0x96c5]);
  (629855066887402800, [0x958095e8]);
  (630556824153267400, [0x842885a9]);
  (631263540875576600, [0x9f8d9f99]);
  (631975287652463100, [0x646982f193ae9547]);
  (636355549918302400, [0x745f]);
  (637104617091218100, [0x8482]);
  (637859337654756400, [0x91d1]);
  (638619797593278400, [0x5c3e]);
  (640158289477226300, [0x540957668afe8bfa]);
  (641720821267534400, [0x7f55]);
  (642511339218245700, [0x52a0548c6613]);
  (643308156183163400, [0x7956]);
  (644111373352889900, [0x5e73]);
  (644921094376151800, [0x68ee]);
  (645737425440067900, [0x96f7]);
  (646560475353719400, [0x56fe57169ea59ea6]);
  (647390355635188900, [0x53e3]);
  (648227180602240600, [0x5e0c66fe83f2]);
  (653400748042159500, [0x54046c5f]);
  (654289642783884100, [0x9ed1]);
  (655186509782160100, [0x8499]);
  (656091493334151900, [0x6839]);
  (657004741690479100, [0x4e00]);
  (658856646467202900, [0x5bc6]);
  (661700439999256200, [0x5c45]);
  (666627544899934500, [0x6d25]);
  (667642782046336300, [0x539f]);
  (668668432063055200, [0x53ef5b665b787d22]);
  (669704710766609900, [0x6d1b]);
  (671810051686393100, [0x7834]);
  (673960672208489500, [0x9b6f9c81]);
  (675053579261708500, [0x517454125be88208]);
  (676158562880367000, [0x6b6690fd]);
  (678405848465572900, [0x541b]);
  (679548718047935100, [0x6cbb90a3]);
  (680704800288042700, [0x6cf0]);
  (681874404264361900, [0x8b1d8c22]);
  (683057850029062100, [0x536b885b]);
  (684255469133733700, [0x6587]);
  (685467605186968200, [0x4e3d706b9e97]);
  (686694614446149650, [0x6751]);
  (687936866446005400, [0x7dad7ef48d6b]);
  (690468647244434300, [0x81b3]);
  (691758987728025150, [0x5e3868516eaa]);
  (697093585798554400, [0x8ce28d24]);
  (698472918011787950, [0x585e601d621862309806987a]);
  (699871542209261900, [0x64926df38df58e10]);
  (702728879453667600, [0x838e]);
  (705670267974296900, [0x73c0]);
  (707174055710751000, [0x672c]);
  (708700802923829800, [0x532f6c476e90812b813182cf8607]);
  (710251221577426300, [0x53bf677e7e23]);
  (711826057274240200, [0x6208753096349670]);
  (713426091408884300, [0x53e46717]);
  (715052143496062300, [0x534e5ba25bcc6ce2820d83ef]);
  (716705073691183400, [0x4e504e9559746a027b2c8f9b9675]);
  (720095228858751600, [0x5b50]);
  (721834403129938450, [0x59ae98a898ce]);
  (723604360839878600, [0x4fe15143984f989c9f4a9f50]);
  (725406211390146450, [0x8036]);
  (727241125256966000, [0x745e7f8c]);
  (729110338558181300, [0x51e15bb0672884b2865a865b]);
  (731015158055250800, [0x4e3056db785578a98c50]);
  (732956966640960950, [0x4f2f9640]);
  (734937229370578900, [0x517983328349]);
  (736957500102330900, [0x660e68656a4b]);
  (739019428822604400, [0x4eac524d]);
  (741124769742387600, [0x518853f05ca1]);
  (743275390264484000, [0x943594c1]);
  (745473280936361500, [0x8fea]);
  (747720566521567400, [0x4f5b624e770183ab]);
  (750019518344037300, [0x4e8e5411590d65bc]);
  (754782323242962700, [0x5f536c0f75769053]);
  (757251584501999900, [0x519c5e725e7966026c40719972368fb2]);
  (759783365300428850, [0x4ee35bbe5c1a6d4b6e2c73ed8cd3]);
  (762380913940754900, [0x516d5cf065f6664290d1912d]);
  (765047738648971100, [0x5e0264ad76ae]);
  (767787636067782500, [0x63a191c79676]);
  (770604723764452200, [0x626c63da6c83718a771f7f8e]);
  (773503477451777300, [0x5efa65b06c496d856f227d047ea696859ce99e20]);
  (776488773766745500, [0x4e0b53f65f375f3a62dc70ed71b1738984498c379686]);
  (779565939633420900, [0x5e955e9a66766c99]);
  (782740809464878850, [0x4e1d50915bc7677068a772697d727e317eb582ac]);
  (786019791747178000, [0x514959276cfd6fa480af]);
  (789409946914746100, [0x4fee5317535a57a358585fc37d797ee28c9d8d1d]);
  (792919078895873100, [0x59545a035bab5bae66f2795d835497cb97e6]);
  (796555843312960600, [0x4e0a4e915cb86f41795c96f2988d]);
  (800329876111245200, [0x5a055a6d5f1791ce9cf49e23]);
  (804251947426573500, [0x4ead50e752b352de5e15]);
  (808334146878598900, [0x55be56b35f9263d06e7e70638fb9908a91dd9488]);
  (812590108320478600, [0x592e5eb86bdb9ec39ec4]);
  (817035284577562000, [0x673a6a5f72b97336963f98179887]);
  (821687286141051100, [0x4e545206538455ac5e86609f61766f586f6d757f76d6793e7fbf84cb8ca28d21]);
  (826566302557994300, [0x89d2901a9999]);
  (831695631996749500, [0x67086f7c7565]);
  (837102354123777000, [0x54c756fa590f6761689d68ad6c3882999e7f]);
  (842818195507771900, [0x521753625eb76e296eab745976e78b938ba9]);
  (848880657689415400, [0x4e18513f515251a253d4585a5b5c5c4f656667f36d666df1767d79ef7a4d9662]);
  (855334509803172500, [0x4e394e494fdd5e265e365f0f7fa9826f87fe8a318bb8]);
  (862233796951867700, [0x4e1a4ed3500958575d0e5ea6696d6cc96d8271df7538842590ce]);
  (869644594167239800, [0x4e6157c357df58eb6e0577f39109959395f4970d]);
  (877648864934593400, [0x4e4c53d156ed571259225e935eab6148620e688568a66b276b506cd7707570cf7259767c7acb90e897329748]);
  (886350002633556500, [0x5347574e5ba45bfa5de6678469ad69cb81e38d0a8d5e9752975e9ed8]);
  (895881020613988900, [0x516c5239524e576a59345b5468116a396cd571d57a577b497d717d8f7edf7ee5836b852d898b89c18cbb8d3996ea982d]);
  (906417072179771600, [0x4f2050b3529f57615ef7671b6c5776db7d507ed37fc580b2849785e48a088ba196d5]);
  (918195375745410000, [0x4e084ee451af51e452a152d952e45609589e59515b985c9065bd676d68426c9f6d6a6d8c6e676e9d6ee86ff173cd7a7a; 0x7e467f2a82d19187975699ae9cf3]);
  (931548515007862200, [0x4ec15468575158f059315b9c62ff65fa679c6a356b4c6c608072838989448d649031]);
  (946963582990588000, [0x4fc4539d5408571f58a959165bb6623662376240653f675c6da76e386ee96f9770587136743c74ca793c796579ae7aef; 0x8cf48cfd8d568d5b8eca8f668fbd904a907c]);
  (965195738669983400, [0x4f504fdf53195a745b305bb95c975d175df366256881695a69ae6d2a6dee73ca7f6e83638cc88d3e8fde9023]);
  (987510093801404500, [0x4f6451e051ef51f152075415544255845742575d582458e95c245cb35e7e5e7f5e9c5ee35f7b5fb9611b665266ec677f; 0x67cf67e56c2e6d4e6e2d6fdf7231724c7518795e7ae07fbd814a81d8864e8cda8d498fe690a6961c9644]);
  (1016278301046582500, [0x4e3b4ed14eea4f304f734fac5100510252aa5355535c53f355ae5a015b635b855c9a5d195d505f005f655f6660706211; 0x624b664f6a216d326df56e0a6e216e566e5b6ed56fb3731c73c873e074dc7a467dec7f05803382cd84bc884c898f89c4; 0x8cc08d3a9322939694b19501958b96c496e8]);
  (1056824811857399000, [0x4ea84f69519b52dd53165339533a5340537153d6580259bb5a9b5bb45bdf5c605ce85cea5de55f6d5fd760e066f46743; 0x67ef697c6a136b0a6cbc6d3b6f066fd170287ae57d107d207ebd80dc80fd83358b198c268ecd8fc7900b904e932b9521; 0x97389808987b9d3b9e3f]);
  (1126139529913393600, [0x50cf514852c353a253cb53f854e85510559c582f594859ec5a1f5a775b5f5b875bee5c115c275ca95e845e975ec26377; 0x667a674967d0699c6b3d6d6e742a7434749c768776d876e476ee76f87af97b567d057e377ea27f157fc17fd4800380e1; 0x8212827a8292831c838a85dd8a628be28c6a8c798de18fdb8ff99032909194a69632976998db98de98ef996d99a59df9; 0x9e70])
].
(** prob_emit.go:47492-48744 probEmit, state 230 *)
Definition emit_230 : list (Z * list Z) := [
  (162970673525703600, [0x56fd570b]);
  (328371612099964950, [0x5dde]);
  (349437589601764000, [0x6d77]);
  (357712190635235940, [0x5357]);
  (361635199118162400, [0x5c71]);
  (366744011527711300, [0x4eac]);
  (377389535924378300, [0x5e02]);
  (378820224810828330, [0x6d32]);
  (379546233517378000, [0x6c5f]);
  (392226288128498450, [0x4e9a4e9e]);
  (395406281129491830, [0x6cb3]);
  (405435841498153900, [0x897f]);
  (406865741127116700, [0x53bf7e23]);
  (412855933581603700, [0x4e1c6771]);
  (413075776523218800, [0x672c]);
  (416407484364774100, [0x7701]);
  (433097571387168000, [0x9633967d]);
  (436614172278957800, [0x533a5340]);
  (438846221554837100, [0x57ce]);
  (453924340708713100, [0x5317]);
  (462471740200195600, [0x539f]);
  (467892563716233300, [0x65af]);
  (471759932748773900, [0x5ea6]);
  (478223557645338700, [0x5170862d]);
  (481594842090776200, [0x6e2f]);
  (494784071490021600, [0x99ac9a6c]);
  (497306862482411400, [0x5c9b5cf6]);
  (497686081746117700, [0x6e7e7063]);
  (501283452820170600, [0x5229]);
  (506104392367301200, [0x5b89]);
  (509189308069296400, [0x6e56]);
  (513367461470791800, [0x53e4]);
  (515002985773418900, [0x5ddd]);
  (517010810466797900, [0x8054806f]);
  (522749701291945900, [0x958095e8]);
  (524921017782382300, [0x5733]);
  (528217462302636200, [0x6d0b]);
  (533783286611104800, [0x90fd]);
  (540606676859172100, [0x7259]);
  (541928476100780450, [0x5c14723e]);
  (547023574416887200, [0x5e866176]);
  (548876351549101700, [0x4e2d]);
  (559782871916476300, [0x82cf8607]);
  (560706173930154200, [0x62dc]);
  (561422252894043900, [0x6d25]);
  (563454990762074200, [0x53e3]);
  (566319237148606200, [0x814a81d8]);
  (568763973113452700, [0x6797]);
  (570126657232451900, [0x9ece]);
  (570874250720226300, [0x88e191cc]);
  (571389001411372000, [0x517395dc]);
  (572546930100757700, [0x514b]);
  (572627283660726000, [0x7586]);
  (574003266519547300, [0x5e73]);
  (576478640434841200, [0x660c]);
  (577359703403056650, [0x5b815be7]);
  (581621161615584900, [0x9bae9c9c]);
  (582061885114325700, [0x5927]);
  (584340295041528000, [0x5cad5dba]);
  (584793194366398700, [0x93ae9547]);
  (585156996495705800, [0x6566]);
  (588350973156443700, [0x6c34]);
  (594360533059116400, [0x6b276b50]);
  (597043559095876900, [0x6c496f22]);
  (600435483533002100, [0x53ca]);
  (602473087540353300, [0x5efa]);
  (606226287439248000, [0x7d047ea6]);
  (608042455406678250, [0x975e]);
  (609542772065883100, [0x4e39]);
  (609950579214221000, [0x54e5]);
  (610184360735073900, [0x7279]);
  (610947947411448100, [0x8def]);
  (611480020792036200, [0x5821]);
  (621510207862192750, [0x85cf]);
  (622829488210649100, [0x5730]);
  (623028890071335500, [0x6839]);
  (623095445814225000, [0x4f2f]);
  (626687834814564800, [0x5fbd]);
  (630056574412932300, [0x5761]);
  (630127977486298000, [0x5766]);
  (630270936767257400, [0x51786c99]);
  (630988814939958000, [0x51748208]);
  (631277415428871500, [0x80838085]);
  (635107043936599600, [0x62c9]);
  (640822885320594400, [0x9813987f]);
  (642183450526172300, [0x7d0d7eb39675]);
  (645626413543881600, [0x7f8e]);
  (647818744181285500, [0x5bfa]);
  (648331565817977400, [0x68656a4b]);
  (649105763233339000, [0x58eb]);
  (650497090025037500, [0x5fb7]);
  (651111936055082700, [0x53f0]);
  (652889760657211050, [0x8fbe9054]);
  (653971827121282800, [0x4e3481e8]);
  (656171732520819500, [0x79d1]);
  (657009336301037800, [0x9f8d9f99]);
  (657665691212438200, [0x81088109]);
  (657759808866444600, [0x56ed5712]);
  (659086842558534250, [0x6c9f6e9d]);
  (660335058476686050, [0x52a0]);
  (660722280644937000, [0x5ce15cfd]);
  (663775201148419300, [0x5316]);
  (664982459271846250, [0x57df]);
  (670603085223748800, [0x6717]);
  (672439981820986500, [0x5e84838a]);
  (672658322519080900, [0x5176]);
  (672986730039199900, [0x5a01]);
  (678046831368578800, [0x6751]);
  (679792076363701450, [0x660e]);
  (680498793086010700, [0x5bb6]);
  (682287749561088200, [0x57238056]);
  (685590802128736300, [0x5934982d]);
  (685839868259981600, [0x5bab5bae]);
  (686214634470005500, [0x6c57]);
  (686465261167611500, [0x4f866765]);
  (686968406883148200, [0x8857]);
  (687855049803712300, [0x4e619109]);
  (690171755731865750, [0x7538]);
  (691218885718595300, [0x9ea59ea6]);
  (691614403702888100, [0x5bbe8cd3]);
  (691878954121730500, [0x590f]);
  (692944210533351250, [0x6ce2]);
  (693615804729894950, [0x8fde9023]);
  (694836158857967900, [0x7530]);
  (696071589808061400, [0x5b9a]);
  (697043144986671000, [0x5cf0]);
  (697742937905435400, [0x4e3052178c50]);
  (700015763013191000, [0x842885a9]);
  (701317299824398100, [0x714c]);
  (701608845220410500, [0x573a5834]);
  (702194498431681800, [0x9686]);
  (704421761992594050, [0x6625]);
  (704572024981047600, [0x65f66642]);
  (706087205483107800, [0x90a3]);
  (709030872712620750, [0x4e0a]);
  (710296712399813100, [0x4e506a02]);
  (712388502265981200, [0x6e90]);
  (712714235453011800, [0x5be8]);
  (714359009373914400, [0x5e97]);
  (714691235593112200, [0x932b9521]);
  (715694588492070100, [0x592b]);
  (716031289146860500, [0x8543]);
  (716708110681474300, [0x5df47f577f85]);
  (717560630763810300, [0x74e6]);
  (718247918692586500, [0x96469678]);
  (718766502395823000, [0x4e9196f2]);
  (719987092963773500, [0x540c]);
  (720514798673857800, [0x5c3c]);
  (721222766232663900, [0x67816975]);
  (724288831472142500, [0x5ca96eaa]);
  (724839797053239500, [0x5ef7]);
  (725764873030454500, [0x6ee86ff1]);
  (729167847889085700, [0x4e18]);
  (730718266542682200, [0x5fd7]);
  (732293102239496100, [0x57c3]);
  (733691726436970100, [0x5c0176df96b696b8]);
  (733893136374140300, [0x54335434]);
  (736549063681375800, [0x5e995edf]);
  (737589655797487400, [0x9b6f9c81]);
  (740132165634068400, [0x9053]);
  (740346988487897400, [0x71df8425]);
  (740562273824007460, [0x6c60]);
  (740994239938459100, [0x6728]);
  (741863810635214500, [0x4ec0]);
  (742520987151538000, [0x901a]);
  (743848440272407500, [0x6d1e]);
  (746100787739115800, [0x4e497fa9]);
  (746786504711729600, [0x6d66]);
  (747476956246384000, [0x96349670]);
  (748638409488453300, [0x52d2]);
  (751242106866752800, [0x548c]);
  (751482203020506700, [0x9806987a]);
  (752935013076797700, [0x65d7]);
  (753179213442352900, [0x591a]);
  (755654587357646600, [0x77f3]);
  (755905528518189200, [0x5361]);
  (758966992100149900, [0x80a5]);
  (760533603774589800, [0x5858]);
  (761061309484674300, [0x5b50]);
  (761591814707643500, [0x7406]);
  (762392887082251500, [0x4f5c]);
  (764287395706496400, [0x99289986]);
  (764835342282958900, [0x6cc9]);
  (765110445620147900, [0x839e]);
  (765386307864055900, [0x96c5]);
  (765940325901617400, [0x9f4a9f50]);
  (766218490197805100, [0x4fc48fb9908a]);
  (766777150868669100, [0x5bc6]);
  (767338950099091400, [0x5e9c]);
  (770777684330039000, [0x8c37]);
  (771069655340372500, [0x697c6a13]);
  (772246139498331100, [0x4f26502b]);
  (772542436011396800, [0x798f]);
  (772839613050312600, [0x66fc]);
  (773137675864126400, [0x7281]);
  (775554711956907600, [0x7d22]);
  (775860990909962200, [0x81f3]);
  (776785496724367300, [0x9ed1]);
  (778345590768615300, [0x73af74b0]);
  (778660551658904950, [0x534e83ef]);
  (779611430455807700, [0x51885ca165b0]);
  (779930409992617700, [0x9dbb9e58]);
  (780250410265684700, [0x5eb76240]);
  (783177448495696100, [0x5179575d58e98332]);
  (783508027309146000, [0x90d1912d]);
  (784172481581012900, [0x6f206f6d985b98a0]);
  (784506371707564400, [0x57fa]);
  (785853193412651050, [0x9662]);
  (786875348819804800, [0x6ee9705896c4]);
  (787218402329483800, [0x90a6]);
  (787908060235389750, [0x91d1]);
  (788951547964647750, [0x59295e725e79]);
  (789301811019768000, [0x68116a39]);
  (790360021952821600, [0x4ed15d19]);
  (791071768729708100, [0x5e03]);
  (793237918407826000, [0x8006]);
  (793970522417033300, [0x5802]);
  (794338846958662900, [0x8eca8f66]);
  (794708533146795500, [0x679c]);
  (796201098168463100, [0x6bd4]);
  (796577746448010800, [0x90f89132]);
  (797335325828856500, [0x756a914b]);
  (800032984598676800, [0x5c975d17]);
  (800424374530790300, [0x7532]);
  (800817302344779400, [0x572d]);
  (802404637260408300, [0x5634]);
  (803611895383835200, [0x6210]);
  (804833906517312800, [0x7528]);
  (806071035697567600, [0x4e958335]);
  (808592177632217200, [0x683c]);
  (809876991880002000, [0x77f678ef]);
  (812055727298492700, [0x516751855c4b]);
  (812497229119404500, [0x532f575e58626c47]);
  (812940688826191000, [0x7a9f]);
  (813833551900621200, [0x7d557edd]);
  (815187974411396800, [0x59375ead631d64be]);
  (816560993692587000, [0x58fd5bff]);
  (817022888278216500, [0x574a884c]);
  (817953127544447900, [0x524d]);
  (820317303850152000, [0x4e3a6cf070ba]);
  (820796921076501300, [0x6d4196de9e21]);
  (821278849720096100, [0x623662378fdc9060]);
  (824718992391829400, [0x7afa95d09617]);
  (825220246574183800, [0x51b76602]);
  (826230356172834100, [0x767d]);
  (826739263123581300, [0x811a817383b1840a]);
  (827250773190258400, [0x4ed35009]);
  (828281710156144500, [0x5c6f5cb3]);
  (829848321830584400, [0x4e035584]);
  (831439867361174300, [0x6c7e8cfd8d5b]);
  (832515146538800500, [0x6b66]);
  (833057153285734500, [0x5149725f]);
  (833602113762491000, [0x6cbd95a39601]);
  (834701025920050400, [0x90e1]);
  (835255043957612000, [0x5854]);
  (835812148462557600, [0x91ce]);
  (836935755789250100, [0x576a]);
  (838645199125180200, [0x79ba959395f4]);
  (839221569596855000, [0x54c7666e]);
  (840384373396367000, [0x65e6]);
  (840970885341606900, [0x5c3e646989d2]);
  (841560857554325600, [0x58c18fbd907c]);
  (842751347804957400, [0x54c876ee]);
  (845791095523394500, [0x6e58]);
  (846410292548186800, [0x5b9b7ad9]);
  (847033347523250200, [0x5ae97af9]);
  (848291225743936300, [0x8499]);
  (848926148511802100, [0x6d1b]);
  (849565128321679300, [0x6c11]);
  (851506936907389500, [0x57d4]);
  (853487199637007500, [0x6e05]);
  (854156098452087000, [0x719f98a898ce]);
  (854829501670221400, [0x59da82d18d77]);
  (855507470368759300, [0x4e0b58308d8a]);
  (856190066875799400, [0x6396]);
  (856877354804575700, [0x5409]);
  (857569399089033000, [0x5f976881]);
  (858968023286506900, [0x56fe57165e95]);
  (859674740008816200, [0x7f8a963f96c697cb97e6]);
  (860386486785702500, [0x514390ca]);
  (861103335733563700, [0x6a0a6c828afe8bfa]);
  (861825360530912500, [0x66f2]);
  (863285240473027700, [0x52dd80dc]);
  (864023251202790000, [0x9640]);
  (864766749051541900, [0x535a6d4e6fdf]);
  (867030996726517800, [0x6cca754c]);
  (867797284001074800, [0x4e3d6bbf6dc49e97]);
  (869347702654671300, [0x53825ee0]);
  (870132020400774000, [0x58e4767b]);
  (870922538351485200, [0x82b18ca28d21]);
  (872522572486129300, [0x6cbb962a]);
  (873332293509391300, [0x56db]);
  (875801554768428400, [0x59c6]);
  (877482266600066500, [0x768b7fd4]);
  (878333335566857400, [0x6492]);
  (879191709935996500, [0x6258]);
  (880057516210308000, [0x54086cfd6fa49a5b9a7f]);
  (880930884207183400, [0x8328]);
  (881811947175399000, [0x90ae90f5]);
  (882700841917123600, [0x536b57e05f8b63d06587676d885b]);
  (884502692467391300, [0x4e16515a9ee8]);
  (885415940823718600, [0x725b932f9519]);
  (887267845600442400, [0x961c]);
  (888206819635426300, [0x7709]);
  (890111639132495800, [0x5468575b58c75e085e2b9031]);
  (891077830223669500, [0x70759748]);
  (892053447718206000, [0x5f205f359091]);
  (893038677362507000, [0x4e708cb7]);
  (897079631196294800, [0x51b2885d]);
  (898115909899849500, [0x51b6]);
  (899163039886578900, [0x74dc]);
  (901290779731307400, [0x59167b54]);
  (902371871341729000, [0x4ed653986e20]);
  (903464778394948000, [0x4e4c70cf]);
  (904569762013606600, [0x5d0e623f6fb3]);
  (905687092073419000, [0x5609]);
  (906817047598812400, [0x81028fc7904e]);
  (907959917181174700, [0x6e21]);
  (909115999421282200, [0x54047960]);
  (910285603397601400, [0x84ec]);
  (911469049162301600, [0x6c557bc08282968d]);
  (912666668266973200, [0x4ead53626dc076e7]);
  (913878804320207600, [0x540d59479756]);
  (915105813579389000, [0x8fea]);
  (916348065579244800, [0x5b5c]);
  (917605943799930800, [0x6ee67064793e]);
  (918879846377673800, [0x65e7820a]);
  (920170186861264700, [0x532370c8]);
  (921477395018000000, [0x51455b98]);
  (922801917693001900, [0x4f1a59d35c4567037719]);
  (924144219726216000, [0x57a3671476c6800392ea94fa99529976]);
  (925504784931793800, [0x585e592a6069826f]);
  (926884117145027500, [0x51e165bd]);
  (928282741342501400, [0x73ed98029876]);
  (929701204841697000, [0x5b595b6b5e935eab5f815fb5611f]);
  (931140078586907000, [0x541b865e]);
  (932599958529022300, [0x5f007965958b]);
  (934081467107536400, [0x6d2e738b82729769]);
  (935585254843990400, [0x4f5951c9677f6dbc9918]);
  (937112002057069300, [0x8352]);
  (938662420710665800, [0x5fc377ff7926]);
  (940237256407479700, [0x5d166f7c7dad7ef4]);
  (941837290542123800, [0x53855ef3829c856a9996]);
  (943463342629301800, [0x5e9461c9688573ca]);
  (945116272824423000, [0x58a8]);
  (946796984656061000, [0x6c4089c089c2]);
  (950245602263178000, [0x53f8]);
  (952015559973118100, [0x4ee4666f672b7a917aaf8fdb9032]);
  (953817410523385900, [0x4ec1626c63da75547d397ecd96f7]);
  (955652324390205600, [0x5219524796499658]);
  (957521537691420800, [0x5f526b788521968f96a8]);
  (959426357188490400, [0x575165b9]);
  (961368165774200500, [0x7f5581fc]);
  (963348428503818400, [0x4f0a7ff0]);
  (965368699235570400, [0x67d493269526]);
  (967430627955844000, [0x53a65ec867b67fa4]);
  (969535968875627100, [0x573b6cfe6d876f337d20]);
  (971686589397723600, [0x4f5b654f67cf6b217e697ef3]);
  (973884480069601100, [0x8944]);
  (976131765654807000, [0x6c8381e383b284ee8fc19077]);
  (978430717477276700, [0x5f6268516d31]);
  (980783767218296100, [0x52fb5300535555ae59cb6746674e687f8dd19e7f]);
  (983193522376202200, [0x740390e8]);
  (985662783635239300, [0x6e1a72fc]);
  (988194564433668400, [0x68c96df56e0a9642]);
  (990792113073994500, [0x53865bb96b7772ee73459a4a9a85]);
  (993458937782210500, [0x5de65e386c817ae0]);
  (996198835201022000, [0x5e746d2a74ef750c809a838e9f3b]);
  (999015922897691600, [0x543e66a8677e68ee751f79e69ec39ec4]);
  (1001914676585016800, [0x4f9d65e5]);
  (1004899972899985000, [0x59575e905eec6ca76ec46ecb79567a46845b90599065]);
  (1007977138766660400, [0x8cc08d3a]);
  (1011152008598118400, [0x56fa65fa]);
  (1014430990880417500, [0x4faf58065df767356cd56d6e]);
  (1017821146047985600, [0x57425c7f5dbc5eb57901]);
  (1021330278029112600, [0x51e4576458575cea5d346d826e38904a9cf3]);
  (1024967042446200200, [0x7a74820d8fe6971e]);
  (1028741075244484700, [0x559c6295652f76d680fd830584cb8fc89081]);
  (1032663146559813000, [0x65ad65b77a9d7aa99732]);
  (1036745346011838400, [0x5cb860e062ff6c886d6a8f1d8f899020]);
  (1041001307453718100, [0x624e81ea]);
  (1045446483710801500, [0x4f1153ec8d758d998db39577957f959895f8]);
  (1050098485274290600, [0x4e1d5d035d0d5f045f53671075767d727fc197d397e9]);
  (1054977501691233900, [0x4eec5011519c53d1600061f7753a767c8fb29752]);
  (1060106831129988900, [0x520753f657405cd2620873e075658449]);
  (1065513553257016500, [0x51cc52aa57295bcc69ae6c6a8363900a905c]);
  (1071229394641011400, [0x51685b8f5d2e69866b3d6cb16d5c76ca865a865b89818b938ba994a6]);
  (1077291856822655000, [0x516c560e577b5e156046605262a468506bd56da76f9775627f588b288b778c1f]);
  (1083745708936412000, [0x52e4582458a95b9d5bf66649664b66f974347b2c7cae7ce7]);
  (1090644996085107200, [0x674369ad6b0a6da66dee6f646fde706f71c876ea7ca47cb583619a379a9a]);
  (1098055793300479300, [0x53845708589e5eca60f9731774a7755976ae76f496769738]);
  (1106060064067832900, [0x4e015225522b52b352de53475965596759d15bb46768680f690d694a6b046d3c77207aaa7c737d737edb864e9b5a9c7c]);
  (1114761201766796000, [0x4fdd53ef57c25bee6253661f671b67f168166817689368af68f26b6370fd739b746a789180cc8b008c0b8cf48d569648; 0x96739e93]);
  (1124292219747228400, [0x56e059485e4c658b65996c386f6e783b793182cd82f184bc8f9b90ce9f4b]);
  (1134828271313011000, [0x4e1a4ed458315bbf5bdf62a5676167e5689d6912696d6c0f90a197f3]);
  (1146606574878649500, [0x516d55105cd96a1f6ce16e296eab6fa776db77e5795e797f79848206833684e58c468c618f148f3f8f85914993a39805; 0x9879]);
  (1159959714141101700, [0x4ed951ef51f1582a5b9c5c4f6bcd6d546f6f7389741b743376d876e47d8f7ee582ac83ab83f28fb0]);
  (1175374782123827400, [0x4fe153fb56de571f575c589358e25c945f375f3a6b6572ec73687bf17c6c800184828574860a8d6b943594c19999]);
  (1193606937803223000, [0x4e66529d52f8561b56f4570d5f9066f868a868e3695a695e6ee16eff752b7533782d815387ba87e0969096b1]);
  (1215921292934644000, [0x4e3b4e8c548057f95cb15ef65f795faa62d66760676f67a367f368d769d36cbf70ed71b17247793c79ae7bc17c927d93; 0x7ecf81fe8ca88d2790b190ed9655965d970d984f989c9ebb]);
  (1244689500179822000, [0x4e074e7e4ede53cc574e575f586c58b358d559825b665b785c9a5d50653e6606679568da745f7802795d79be79c08306; 0x83aa842c888b88ab89ba89c98cc88d3e96d99ad8]);
  (1285236010990638500, [0x4e454f0d52185289529b52bf52e253cb53f25768584d58995904594e59d05a465b5f5ba15be95c165c985cf45d5d5d81; 0x5fe0601d6070654867086b236cad6f5870e6716971d572367246726776877b0b7b4d7f3d7fe07ffc80af8349843d853a; 0x85fa85fb86558d768d9590b594b5966196d29cf49e23]);
  (1354550729046633000, [0x521a525b53205747575a5805592e595159735a1c5b635c0f5e7f5ee35f135fae609f61556613663e671d684368e068f1; 0x6cd76d856d8c6e2d6e676fd17028706b72f17344745978a779b97a0b7bad7d057d2b7ea2805e80968292833983f19012; 0x905e90b895fb965f96c096e9986f9f0e])
].
(** prob_emit.go:48745-49002 probEmit, state 231 *)
Definition emit_231 : list (Z * list Z) := [
  (198269161932880690, [0x884c]);
  (234016564060194070, [0x5b665b78]);
  (253340632317120960, [0x9662]);
  (256500746574634200, [0x5e9c]);
  (260252990506943150, [0x4f1a6703]);
  (274201737531159100, [0x90e8]);
  (320895986954788400, [0x5c40]);
  (332512608997736200, [0x53f8]);
  (343742138373079880, [0x519b8ecd]);
  (345244556799871400, [0x515a9ee8]);
  (358519090005610100, [0x56e25718]);
  (367903541795651150, [0x592e]);
  (370526834164871350, [0x793e]);
  (381043198753525700, [0x56fd570b]);
  (382430733402887400, [0x6240]);
  (397171653946540460, [0x961f968a]);
  (408421288044209700, [0x59d4]);
  (410778446501872000, [0x7e547ec7]);
  (470337535541242100, [0x5238]);
  (501047551372130300, [0x533a5340]);
  (507574051509424100, [0x534f5354]);
  (511850237443232200, [0x90a6]);
  (518628238949406500, [0x5fc3]);
  (523416387572727800, [0x5c55]);
  (526740793430643300, [0x7269]);
  (527873950031598300, [0x99289986]);
  (534346797301647700, [0x53f0]);
  (546620245661035600, [0x6821]);
  (553005392859688900, [0x76df]);
  (566306217185033800, [0x901a]);
  (573235395232173000, [0x53855ef3]);
  (577823355807242300, [0x8a0a8baf]);
  (585632199504386000, [0x5927]);
  (587683553487696300, [0x4e1a696d]);
  (588203035175406700, [0x53825ee0]);
  (588725229573521900, [0x8054806f]);
  (590308376095189900, [0x4fe1]);
  (595774217348976350, [0x7528]);
  (596337599120802000, [0x8679]);
  (603965929595765000, [0x836f85e5]);
  (608327991843354100, [0x5c14723e]);
  (613557941783638900, [0x7530]);
  (614231345001773400, [0x4f539ad4]);
  (618369866618058800, [0x9645969b]);
  (620505179065115700, [0x4f17773e]);
  (625672380119547800, [0x6c146c23]);
  (626432840058069700, [0x583162a5]);
  (627199127332626600, [0x7ad9]);
  (630324381683037100, [0x8eca8f66]);
  (631924415817681150, [0x59048655]);
  (640332727538735300, [0x514b]);
  (650479673555221300, [0x7cfb]);
  (653435553779375700, [0x4efd]);
  (660692623062859200, [0x8fbe9054]);
  (665088935404970900, [0x517353d1767c95dc]);
  (667361760512726500, [0x7f72]);
  (679572030192816450, [0x5668]);
  (683546063057767900, [0x7701]);
  (684906628263345800, [0x5f375f3a]);
  (690541921918458900, [0x5175]);
  (698064264042217700, [0x5e97]);
  (704518116155974800, [0x5ba45e085e2b]);
  (706198827987612900, [0x4e1c6771]);
  (707908271323542950, [0x6ce5]);
  (709647445594729800, [0x5b507a7a]);
  (711417403304670000, [0x8def]);
  (715054167721757400, [0x5316]);
  (716923381022972700, [0x7483]);
  (720770009105752200, [0x4e2d]);
  (722750271835370200, [0x8c37]);
  (724770542567122200, [0x5802]);
  (733286323401152900, [0x57c38b708bae]);
  (745064626966791300, [0x9152]);
  (752860781113762400, [0x6280]);
  (758417766229243500, [0x822a]);
  (761316519916568700, [0x53a65ec8]);
  (764301816231536900, [0x753596fb]);
  (770553851929670200, [0x73e08f2a8f6e]);
  (773832834211969400, [0x5ead]);
  (777222989379537500, [0x534e7db27f5180ce83ef]);
  (780732121360664400, [0x678469cb]);
  (784368885777751950, [0x529b529e6f6e811181668fa6]);
  (792064989891364800, [0x966996aa]);
  (796147189343390300, [0x5de59012905e]);
  (804848327042353300, [0x6559]);
  (809500328605842500, [0x6295]);
  (814379345022785700, [0x606f]);
  (819508674461540700, [0x899689c68ca88d2792fc94a2]);
  (824915396588568400, [0x539f]);
  (830631237972563200, [0x5723805691d1]);
  (836693700154206800, [0x51748208]);
  (843147552267963900, [0x679779d1]);
  (850046839416659000, [0x5b896cb977ff79267dda7ebf85cf9675]);
  (857457636632031100, [0x6750]);
  (865461907399384800, [0x639280fd]);
  (874163045098347900, [0x65b9]);
  (883694063078780300, [0x52a852d55c717bee7c437d0d7eb382308266]);
  (894230114644563000, [0x946b99ac9a6c]);
  (906008418210201300, [0x6cf06d257e967ea4827a85dd901f]);
  (919361557472653600, [0x4e8b5546573a583459295e866176624b65d77d447ec47f8e8fd08fde9023904b9806987a]);
  (934776625455379300, [0x4e4c4ee3666f6e9070cf8cbf8d388db3]);
  (953008781134774800, [0x7403]);
  (975323136266195900, [0x51495229653f65c5725b72797acb7bc082829633967d]);
  (1004091343511373900, [0x65af661f68c96c7d83f1]);
  (1044637854322190400, [0x4e134e5053bf58545b875c085c0f5e7f5ee35f795fb76a026b636d3e72f173447e23958095e8]);
  (1113952572378185000, [0x4e0b56ed57125ef762d66728697c6a137bc48303])
].
(** prob_emit.go:49003-50736 probEmit, state 232 *)
Definition emit_232 : list (Z * list Z) := [
  (312450513079338780, [0x6559]);
  (324238298283790700, [0x65cf]);
  (354156634076892400, [0x8a0a8baf]);
  (354641231771506370, [0x8a9e8bed]);
  (366306829963040050, [0x534e83ef]);
  (380528972363132170, [0x4e89722d]);
  (414158217419745500, [0x62186230]);
  (415679802143470840, [0x6587]);
  (422145012085623300, [0x6cf0]);
  (426462229272144300, [0x901a]);
  (447973367233838800, [0x5b89]);
  (456760103054869800, [0x661f]);
  (462987280136257200, [0x514b]);
  (464989418122313000, [0x5229]);
  (465408705948316600, [0x547d]);
  (466111449529062300, [0x6797]);
  (467746750812722900, [0x4efd]);
  (469701210420019950, [0x8fbe9054]);
  (472217997590712600, [0x4fe1]);
  (473424648732024300, [0x4f1a6703]);
  (483305290843014800, [0x79d1]);
  (484994520199465400, [0x6839]);
  (492143571420615700, [0x53d1767c]);
  (493432723712456100, [0x548c]);
  (493711146166096600, [0x8def]);
  (494551095108094250, [0x65af]);
  (498957938421803000, [0x5956734e]);
  (499350480633413500, [0x738b]);
  (501537446522410200, [0x5143]);
  (501738653833752300, [0x583162a5]);
  (508078438769710400, [0x4e9a4e9e]);
  (508400846356885700, [0x9f8d9f99]);
  (509265716612738800, [0x529b]);
  (509483108002700800, [0x99ac9a6c]);
  (510138132178772700, [0x7db27f51]);
  (512465106980268600, [0x4e1a696d]);
  (513140025177761500, [0x5c14723e]);
  (516351310289473400, [0x5927]);
  (523977508772836400, [0x52a852d5]);
  (529671155061856100, [0x660e]);
  (537276754204827600, [0x6cc9]);
  (538723957465681000, [0x5b9d5bf6]);
  (539162234281190600, [0x928094f6]);
  (539749607482400000, [0x9806987a]);
  (542587736736222400, [0x4e305b508c50]);
  (543043318389808500, [0x7387]);
  (543348196674744300, [0x7684]);
  (544422650603042100, [0x5668]);
  (546922780823583800, [0x5b57]);
  (549975226644648400, [0x6cb3]);
  (550794232041652900, [0x6d6a]);
  (552118754716654900, [0x6d77]);
  (552285560426724600, [0x5730]);
  (556200954168680450, [0x76db]);
  (556723148566795600, [0x7279]);
  (558661535248900400, [0x7f8e]);
  (560456915610560000, [0x514991d1]);
  (561366839996071400, [0x7dda7ebf]);
  (561733140771945100, [0x5e7f5ee3]);
  (562100788244876000, [0x5bcc]);
  (563959577821685100, [0x4eba]);
  (566621331921680700, [0x72b672c0]);
  (567007432787426600, [0x6307]);
  (570151110129783100, [0x4eac8fea]);
  (570952717628606700, [0x5f0f]);
  (572167307458817500, [0x4e497fa9]);
  (572575471290782400, [0x7530]);
  (575269934815127600, [0x798f]);
  (576538450767859100, [0x65e5]);
  (578471915938604650, [0x52d2]);
  (581332396996771000, [0x6b63]);
  (582004292021645500, [0x53d88b8a]);
  (583818400728710500, [0x751f]);
  (584277117129401200, [0x65b0]);
  (590685002797853400, [0x9662]);
  (590930401694010050, [0x673a6a5f]);
  (591423013527615600, [0x592a]);
  (591670232442154550, [0x5929]);
  (592665265527471300, [0x5e73]);
  (593923143748157400, [0x6280]);
  (595453785876424900, [0x8054806f]);
  (596227983291786500, [0x5316]);
  (597269659377612000, [0x5b97]);
  (598058099730026900, [0x5510]);
  (599386140496816400, [0x6cd5]);
  (599922334810954900, [0x6c5f]);
  (600191513977526000, [0x771f]);
  (601275535432812500, [0x6e90]);
  (604882028924892100, [0x83f1]);
  (605164914544939900, [0x753596fb]);
  (608330646532009000, [0x519c6d0b8fb2]);
  (609507130689967700, [0x8b708bae]);
  (610997471240225100, [0x5dde]);
  (611902454792216900, [0x96ef]);
  (613121982101598800, [0x5f79]);
  (613429202005295800, [0x5fb7]);
  (613737368659036600, [0x53866b77]);
  (616554456355706200, [0x7f577f85]);
  (618801741940912100, [0x5bb6]);
  (619780542577528400, [0x5c71]);
  (620108950097647400, [0x9178]);
  (624823627940217550, [0x62c9]);
  (625515672224675000, [0x65b9]);
  (627267030473945800, [0x51675185]);
  (628332759921344600, [0x5e935eab7d007eaa89c089c2]);
  (631231513608669800, [0x5170862d]);
  (631599838150299500, [0x4e58]);
  (633838737639647300, [0x65706578]);
  (634596317020493100, [0x57fa]);
  (635359679506000200, [0x5c3c]);
  (636515761746107800, [0x7dad7ef4]);
  (639266426325091200, [0x52a0]);
  (639665628452044900, [0x745e]);
  (640066430591798800, [0x4e2d]);
  (641278566645033300, [0x9b6f9c81]);
  (642094897708949400, [0x6668]);
  (643332026889204000, [0x5b815be7]);
  (645005706124756450, [0x677f793c79ae]);
  (645428539735708550, [0x7d937ecf80fd]);
  (645853168823853600, [0x52425291]);
  (647137983071638500, [0x836f85e593e1955c]);
  (648003789345950000, [0x6c83]);
  (652448965603033400, [0x6c34]);
  (653821984884223600, [0x6210]);
  (654747917425503300, [0x4eea51006cb9]);
  (655214118736084400, [0x4ef750f9]);
  (655682503667327050, [0x578b]);
  (656153092771068300, [0x6cbb80fa]);
  (656625906890662900, [0x725b864e]);
  (657100967166522700, [0x5e8a]);
  (657578295041788400, [0x79b9]);
  (658057912268137700, [0x683c6da66f64]);
  (658539840911732600, [0x53f756fd570b865f]);
  (661481229432361900, [0x8fdc9060]);
  (662985017168816000, [0x4f539ad4]);
  (664000254315217800, [0x82f1]);
  (664511764381894800, [0x82b1]);
  (665025904331936800, [0x51748208900a905c]);
  (666062183035491400, [0x592268a672d0]);
  (667109313022220900, [0x7d197eb8]);
  (668167523955274600, [0x6613]);
  (668700858552810900, [0x4e505b9a6a02]);
  (669237052866949400, [0x5e0677f3]);
  (670318144477371000, [0x6c146c23]);
  (671411051530590000, [0x9633967d]);
  (673073139654194000, [0x8abc8c0a]);
  (675333122845918150, [0x4e01]);
  (676482560788491700, [0x90a6]);
  (678821848745962200, [0x901f]);
  (679415322297943600, [0x920994a0]);
  (680012338996594100, [0x676f6bd289d2]);
  (680612941402615200, [0x68656a4b724c97f3]);
  (681217172848211500, [0x71997d20]);
  (681825077455849700, [0x4fdd]);
  (682436700157593300, [0x5eb7]);
  (684921300016246400, [0x90fd98059879]);
  (686187139703438700, [0x754c8a188bb0]);
  (686826119513315900, [0x9053]);
  (687469208546344900, [0x4e665fe7618266f88c8c]);
  (688116459996906650, [0x6e296eab]);
  (690083736556777100, [0x795e]);
  (690748190828644000, [0x75287d0d7eb3]);
  (691417089643723600, [0x6c496f2288d5]);
  (692090492861858000, [0x5175]);
  (692768461560395900, [0x5c556599]);
  (696229014478143500, [0x56fe57165ea7]);
  (697647477977339100, [0x900f]);
  (699086351722549100, [0x4f2050b35bfa]);
  (699813627655457100, [0x5cf0]);
  (702027740243178400, [0x585459577d057ea2]);
  (703531527979632450, [0x53f27e547ec7]);
  (704291987918154400, [0x75c7]);
  (705058275192711300, [0x523872478679]);
  (705830479802102300, [0x6708767e]);
  (706608693846307800, [0x73e0]);
  (707393011592410400, [0x4e7360277c89]);
  (708183529543121700, [0x50e76db2971c]);
  (709783563677765900, [0x5934916f982d]);
  (710593284701027800, [0x521b52758d8a]);
  (711409615764943900, [0x8349]);
  (712232665678595500, [0x5de5]);
  (713899370927116600, [0x52368cea8d28]);
  (714743257791703100, [0x54c870f7]);
  (718191875398820000, [0x679c8afe8bfa]);
  (719072938367035500, [0x7f6a]);
  (719961833108760100, [0x7ad991879d5d9e45]);
  (720858700107036100, [0x7d077ea58fdb9032]);
  (721763683659027900, [0x5ba45fc38abf8c03]);
  (722676932015355200, [0x514698a898ce]);
  (723598597525847600, [0x554f95ee]);
  (724528836792078900, [0x67518f2a8f6e]);
  (725467810827062800, [0x5473]);
  (726415685222517200, [0x7cfb]);
  (727372630324132300, [0x757f78b37cbe96469678]);
  (728338821415305900, [0x4f9d628a7a0b]);
  (729314438909842400, [0x6d4e6fdf]);
  (730299668554143600, [0x4f2f68ee]);
  (731294701639460400, [0x79c083bd958095e8]);
  (732299735224810500, [0x56e25718]);
  (733314972371212400, [0x59046c998655]);
  (735376901091485900, [0x538b58d358eb]);
  (736424031078215400, [0x76d09e7d]);
  (737482242011269100, [0x5ddd666e6ce88ca88d279e7f]);
  (738551770922944000, [0x7687]);
  (739632862533365550, [0x5e866176]);
  (740725769586584500, [0x5e03]);
  (741830753205243000, [0x7269897f]);
  (742948083265055550, [0x4ec170ef]);
  (744078038790448900, [0x4e1c67718239]);
  (745220908372811100, [0x5a015b665b789b5a9c7c]);
  (746376990612918800, [0x536b5802674973ed7ba1885b]);
  (747546594589237900, [0x53575c045f69]);
  (748730040353938200, [0x533a53406377]);
  (749927659458609800, [0x55467b2c923494c3]);
  (751139795511844300, [0x4e094e3a52125283671f70ba7206984d989d]);
  (752366804771025700, [0x9645969b]);
  (753609056770881400, [0x53cb65e6671b67287acb]);
  (754866934991567450, [0x57665f9777ff7926]);
  (756140837569310300, [0x513f5152]);
  (757431178052901200, [0x72e986808755]);
  (758738386209636400, [0x4e914ef65f1396f2]);
  (760062908884638500, [0x5609]);
  (761405210917852600, [0x6253]);
  (762765776123430400, [0x5708943594c1]);
  (764145108336664000, [0x592b6d66]);
  (765543732534138000, [0x80058b498bc18eca8f66]);
  (766962196033333700, [0x5251528d6d326d5973af74b0821f]);
  (768401069778543600, [0x5efa652f7c7b80a18fd0904b985e]);
  (769860949720658900, [0x53f054e5572359cb5ca95e978056]);
  (771342458299172900, [0x52c36709]);
  (772846246035627000, [0x5e747a917aaf]);
  (774372993248705800, [0x4e8b53616c646e2f6e6f9ec39ec4]);
  (775923411902302400, [0x819c8cfd8d5b9756]);
  (777498247599116250, [0x52dd57ce6bbf74f780dc8c79]);
  (779098281733760400, [0x571f9df99e70]);
  (780724333820938400, [0x532f5976646965a76c4770df7159866b87f2961f968a97329738]);
  (782377264016059500, [0x5df492fc94a2]);
  (784057975847697600, [0x708e915a]);
  (785767419183627600, [0x4f6c5b5c8ef88f7490e89ad8]);
  (787506593454814600, [0x4ead515a6768694a6eaa8a088ba1916e9ee8]);
  (789276551164754600, [0x53f66c2f7a7a8449888b]);
  (791078401715022500, [0x516891cf]);
  (792913315581842150, [0x6240764088688ac78c08924094be9f0e]);
  (794782528883057400, [0x537759375b9b76f8]);
  (796687348380126800, [0x4f73521d52b352de5347606f76ae9686]);
  (798629156965837000, [0x58215b5a92f09502]);
  (800609419695455000, [0x50f353a25ec28cc78d4492c194dd]);
  (802629690427206900, [0x5411574a5e0c804c8077]);
  (804691619147480500, [0x539f665a88e191cc]);
  (806796960067263700, [0x818f]);
  (808947580589360100, [0x4f51508559475c9b5cf6688588c588dd]);
  (811145471261237600, [0x4e1d5b9e5be6767b7d72805e826f95fb98179887]);
  (813392756846443500, [0x58f35ea6674367b66b0a6bbc74347bb19150]);
  (815691708668913200, [0x4e615c4b660c670d67aa69cd6cfd6fa48ddd9109]);
  (818044758409932600, [0x5370540858c15a1c60e0623f7db87eb6817f919b]);
  (820454513567838700, [0x58f06e387089721074038072904a]);
  (822923774826875800, [0x531756db5f02757076d876e48cbb8d3992239499]);
  (825455555625304900, [0x535a6750767d884c]);
  (828053104265631000, [0x55b7567488619999]);
  (830719928973847000, [0x5be85e265e3667f46d3e706f71c87b269152]);
  (833459826392658500, [0x5e1d5f1766257f387fd48e0f]);
  (836276914089328100, [0x5a775cad5dba5e845e9461c9838a9943998d]);
  (839175667776653400, [0x5f6c6b4c70ed71b17b5681508fb0]);
  (842160964091621400, [0x4e954f8659655967658b662f67656c2e738977fd78457d0b7eb990a398db98de9f4b]);
  (845238129958296900, [0x5f375f3a5fbd6b668f9e8fad95a396019774]);
  (848412999789754900, [0x654f6c416f0674e6822a8eab8ff7]);
  (851691982072054000, [0x517956345b625b875de26d8c6e67829d833296c59762]);
  (855082137239622100, [0x4e3854c155985f6260f36c116eb678f77ae57bee7c43919a925b94c59577957f9d6c9e4f]);
  (858591269220749200, [0x50a851325bab5bae62f3663e66fc788e78c17d717edf82ef918b986f]);
  (862228033637836700, [0x4f26502b50657ffb]);
  (866002066436121300, [0x5511591a677e67d36e7e7063732b7e317e697eb57ef37f5581028336878d88638c939769]);
  (869924137751449500, [0x541b58995e3d5fae6bd4724681088109811181668c9e8d1e8d6b9ed49ed8]);
  (874006337203475000, [0x4e4c585170cf827a85dd]);
  (878262298645354600, [0x6d526ef87075739b746a79a7806a80708c61926494a99748]);
  (882707474902438000, [0x5e725e7968d26e2172fc78917d687ed284e3857788968c9d8d1d9640]);
  (887359476465927200, [0x591c66026b3e6ce56e7f6fd57d277dca82f7838e91ce91dd92a8948894f59752]);
  (892238492882870400, [0x4ed3500951ef51f153a8570657135b8f5eda602a638c6c0f6c4070b9745a786b80ce829082c488408a009813987f9ede]);
  (897367822321625600, [0x56e059c65c405f5567dc6ac36bcd706b775b805a926c93049310938294bc95259541992899869db49e64]);
  (902774544448653000, [0x4f5b51e459165f815fb56c7671b9725977ed79657c957d217eba7ffc8ad68bba9cf39ed1]);
  (908490385832647900, [0x52675287530553e356fa6746687f6b966ce272ee73457a977e967ea4836a84c08c379285932094dc952d963296e89821; 0x988999b39a709d289e2d]);
  (914552848014291400, [0x537856ed571260696f9c703e70bc714981f49176]);
  (921006700128048500, [0x4e0b518852bf52e257615ca15f8b67ef68816c606d016f547a8180af80f681a0830284dd85cd85e48c4692ea94fa]);
  (927905987276743700, [0x4e714e824ed14f0a529e57645d1963d06740684369886ada6bba8b5c8c318fa693b5955395a59600967596c69759975c; 0x978b]);
  (935316784492115800, [0x4e165099516c59075c396b656bdb6c816d1b6e206e56793e79be7a057a0e7bc0828283b1840a886b914d932294b19bca; 0x9ca8]);
  (943321055259469600, [0x4f7f53c253c35bb95c45601d610f620f623265d7671767906c5e74068721881f89868f1d8f8996de983b98919e21]);
  (952022192958432500, [0x4e0053e05875590f5ba25c185df769fd758a76b176ba76df7e617e7c7ee37ee784b888ab8aa08bda918c92c59333950c; 0x9530]);
  (961553210938865000, [0x4e944ed951fb520053ef5c51626362a464ca665366c9686868ad69f36a2a6a6b6f6e724876d276f47a577b4b7de37f18; 0x85cf8b7791d894899ea59ea6]);
  (972089262504647600, [0x519b51b253c9543854af5757584a5c605ead627f62f163a764ad666f67146761689d68c969056c226c2b6cf56d856e6b; 0x718f74837816785d78da7b147b467d147eaf83c1885d8a898b7d8ecd8f158f7b90099078932b9396950195219ebb9f13]);
  (983867566070286000, [0x4e5d52e4540c59a55f0062366237667a68466bef6e176ef27172781c787c797f79847a3f7d047d337e2e7ea67ec57f29; 0x7f507f8a81b381ea827282d188d9922693a29418946b949b949f94a8958b9f529f7f]);
  (997220705332738300, [0x4e184ee54fbf516d529f540d56ca575b575d576a58c758e958fd5bff5c425c645e9a5fd76258627662bd653e65976643; 0x69786d177126739174a376c876cf76de7ae07c73832883dc84998c6a929192a692c794a194df94e39b259cf49d3f9e23; 0x9e3d]);
  (1012635773315464000, [0x4e034ec04ee34f11517751f05760579258245857589c58d85a035b54611f629765c5660a6d416d6e6d82718a72c2745f; 0x7532753378b17b5b7b8d7be97d617e9c7edc7f067f6e7ff08089810683f288e489328a718bdd8cbc8d348e2a8fde9023; 0x93c894fe9e7c]);
  (1030867928994859500, [0x4f1e4ff1509851a053e459d459ff5e185e95674268b369ae6df370e4716471c372d7755c75d876c678027c3e7ca57cd5; 0x7d227d307ec67f69829982b3836383ab83b283ba84ee867e869587668836886c896f8ce28d249102927b92bb939894ec; 0x95119549959395f496dc9daf]);
  (1053182284126280500, [0x4e394e8c51c0520752fa5374537b53a653ed5415544258305cb35e055e255ec866ff674f67c4684268516a596b276b50; 0x6c426ce06d3c6d536de86df16e236f146fc3710a72367426753b756b76ca76d676fe78987a007aaa7fce80bc814a81d8; 0x81ed82e584cb85b0861186cb89258ed28f258f698f8a8fe6917191ac92b392ef935b9376950695109536953b967697cc; 0x97e798f298fe9921996e997099859e9f]);
  (1081950491371458500, [0x4e254e324eb24ee44f17517851cc5385556656b457a657ab588a58be5c4f5d165e085e155e2b5e2e5e6b5ef35f15611b; 0x620a6247626b626c62d362d4638363da672a67f16866687668a8697c6a136a3a6ca56d696fb3701d723174f6752b76ee; 0x773e785279e479e67b0b7b4d7b527da07eff809f80a480a980bd8180819a81e382ac82af845784ec899689aa89c68ce6; 0x8d4b90ce92749451947d94bb9635963f966396d596ea96fe97279ce59e1f9f9c9f9f]);
  (1122497002182275000, [0x4e344f4d507650cf515c518a518c520a524a540f54335434559c55ea560e56f4570d58835973598359ae5e015e635f6d; 0x607660e16208624b654865bd667666dc672c69126a216cee6d466e056ecb6f3f7136719473cd76fc783c78e87b547ca4; 0x7cb57d177e937eb17f287fa481e8821c842884c985a985c9865a865b87f9889c896a8a698bd78f3b8f908fb99001908a; 0x92379326941394b4952695669634967096c1981898869a379a9a]);
  (1191811720238269600, [0x4e194e594ea74f344f5050195091516b523a524d52fe533e534153565362536453cc53f85409541f542754645576573a; 0x576f57a358065834585e5939593e59545b9c5bc65cb85cfb60466052614862e663026346639b649565146557659c65a9; 0x65ac65e966206770679567cf67f5680568076811684c68af6954699c6a196a396c1f6c306ca66d2a6d9b6dea6ec56ee9; 0x6f0f6fe47058706d7519752276e777637a7f7b3c7c277c607c7d7c927c987cdc7ce07d507d837ed37ee17faf7fb9809d; 0x8112812b813181328170817e82d782e6835483ca83cc84188471852586c7898b89c18ca18ce38d228d258f1b8f868fc8; 0x90389081917091899200923092579318937a947c94af94b394c8951795239524957296d996f79704976097ad984f989c; 0x98df9905997c9a309b3b9d3b9dfa9e3f9e6d9e759f20])
].
(** prob_emit.go:50737-50810 probEmit, state 233 *)
Definition emit_233 : list (Z * list Z) := [
  (212227093917015440, [0x54c8]);
  (266824395070179050, [0x5566]);
  (270410986389028700, [0x9686]);
  (285872881813490580, [0x5583]);
  (290571732757082520, [0x549a]);
  (294425099157306800, [0x901a]);
  (306561184857733560, [0x563f]);
  (315409057726091470, [0x55e1]);
  (322718246126625100, [0x54e7]);
  (357509428879685840, [0x54955f537576]);
  (358182832097820250, [0x5693]);
  (366638570900626570, [0x561f]);
  (367376581630388800, [0x54af]);
  (368120079479140600, [0x6026]);
  (368869146652056400, [0x54c7]);
  (389690936761809800, [0x55b3]);
  (402516370314177700, [0x565c5695]);
  (409040422501017800, [0x556a]);
  (420959274227529600, [0x5431]);
  (422233176805272600, [0x560e]);
  (424830725445598700, [0x55d2]);
  (428858115359392700, [0x5440]);
  (430237447572626200, [0x5527]);
  (442015751138264600, [0x5654]);
  (453598932690776700, [0x54d25660]);
  (459005654817804300, [0x5471]);
  (464721496201799140, [0x6c69]);
  (466701758931417100, [0x55d6]);
  (470783958383442700, [0x55f7]);
  (472889299303225900, [0x5577]);
  (477237810497199800, [0x53fd5630]);
  (479485096082405600, [0x55675616]);
  (514505339025717100, [0x96f6]);
  (524683608456711300, [0x6dd9]);
  (548799814138400150, [0x7b54]);
  (553451815701889400, [0x98bc98d5]);
  (558330832118832600, [0x54e8]);
  (563460161557587700, [0x4e53557e]);
  (601409123728078000, [0x6ca5701d]);
  (609413394495431700, [0x62c9]);
  (638181601740609850, [0x55e4]);
  (649959905306248100, [0x545755046c99]);
  (663313044568700400, [0x51ac5df4]);
  (678728112551426200, [0x542754aa55876e9c]);
  (696960268230821700, [0x53ed545656a66f7a93d89535]);
  (719274623362242700, [0x524c]);
  (748042830607420800, [0x5514]);
  (788589341418237200, [0x5544]);
  (857904059474231700, [0x513f51525537568f90ce])
].
(** prob_emit.go:50811-50837 probEmit, state 234 *)
Definition emit_234 : list (Z * list Z) := [
  (136902122262352170, [0x8fc7904e]);
  (145710044245524500, [0x4e8e65bc]);
  (200128741693142140, [0x77408457]);
  (202620308157842700, [0x4e86]);
  (212550501256454700, [0x636e64da]);
  (269779312289850100, [0x7167]);
  (380776367770699300, [0x5bf95c0d]);
  (419462779804300800, [0x4ece5f9e]);
  (495263561280499400, [0x501f]);
  (545547488493833500, [0x540c]);
  (555915331441317700, [0x5f537576]);
  (652607413737877100, [0x753181f3]);
  (656551586943006700, [0x4e4b]);
  (712945131851000600, [0x6253]);
  (725866304999001200, [0x5357]);
  (743411172749620500, [0x53ca]);
  (964512962696476000, [0x6cbf]);
  (993281169941654200, [0x81ea])
].
(** prob_emit.go:50838-50946 probEmit, state 235 *)
Definition emit_235 : list (Z * list Z) := [
  (153796654225591920, [0x5143]);
  (153964277242082060, [0x7c73]);
  (168973665155246460, [0x88e191cc]);
  (301509772301974440, [0x79cd7a2e]);
  (310478042595834100, [0x5217]);
  (338100574461873600, [0x5929]);
  (369367881971315050, [0x53f8]);
  (370711687187519120, [0x514b]);
  (410640044863914100, [0x65b9]);
  (433164705015013000, [0x4e2a500b]);
  (441502865908918100, [0x5e74]);
  (456006765856518300, [0x9418949f]);
  (458145884854650100, [0x62c9]);
  (460055901991992040, [0x65a4]);
  (460608389585188950, [0x513f5152]);
  (474238921535913800, [0x98039877]);
  (479786836767936600, [0x5c425c64]);
  (480460239986071100, [0x4ea9755d]);
  (493044144686207700, [0x938a9551]);
  (494978440970520900, [0x96359663]);
  (496157236545725060, [0x5b50]);
  (522196229562102400, [0x5206]);
  (527460602910644650, [0x9813987f]);
  (531881212161094200, [0x74e6]);
  (537696804176801550, [0x932294b1]);
  (541978803895094400, [0x5bb6]);
  (543871604883646300, [0x6b65]);
  (547108133333849440, [0x7279]);
  (577646298288967600, [0x53e5]);
  (590999437551419900, [0x8033]);
  (593061366271693500, [0x8d6b]);
  (596236236103151500, [0x4efd]);
  (605231059769445400, [0x53478c9d8d1d]);
  (606414505534145750, [0x51798332]);
  (608824260692051760, [0x65f66642]);
  (610051269951233200, [0x5c3a]);
  (620450241303638000, [0x5361]);
  (630530711215834600, [0x4ed15d19]);
  (643451884363835200, [0x6b21]);
  (645191058635022100, [0x79d2]);
  (650597780762049600, [0x6587]);
  (662376084327688000, [0x54285678]);
  (666632045769567600, [0x5398]);
  (685737569445838500, [0x58f08072]);
  (688404394154054600, [0x4f0f]);
  (691144291572866100, [0x683c]);
  (693961379269535700, [0x7c07]);
  (709376447252261600, [0x4ee46735]);
  (719912498818044200, [0x7d447ec4]);
  (723686531616328900, [0x5730]);
  (727608602931657000, [0x5bf8]);
  (749922958063078000, [0x57f9]);
  (755052287501833100, [0x65e5]);
  (772237313194498900, [0x5b89]);
  (778691165308256000, [0x4e1b53e2573a5834]);
  (785590452456951200, [0x62366237]);
  (793001249672323400, [0x565c56955ea6]);
  (829773727684855100, [0x67f16bd4]);
  (841552031250493500, [0x812b8131]);
  (854905170512945700, [0x5df490ce]);
  (888552394175067100, [0x68376a2391cd]);
  (910866749306488000, [0x91d1]);
  (939634956551666200, [0x660e]);
  (980181467362482600, [0x5904676f8655]);
  (1049496185418477100, [0x59c65c815f17620862c564d46b7270b974349ede])
].
(** prob_emit.go:50947-50948 probEmit, state 236 *)
Definition emit_236 : list (Z * list Z) := [
  (0, [0x4f4d])
].
(** prob_emit.go:50949-50949 probEmit, state 237 *)
Definition emit_237 : list (Z * list Z) := [].
(** prob_emit.go:50950-51214 probEmit, state 238 *)
Definition emit_238 : list (Z * list Z) := [
  (173469212720727750, [0x4eec5011]);
  (219026103860637230, [0x4e489ebc]);
  (264380151917806500, [0x4e2a500b]);
  (271449697978504730, [0x4e9b]);
  (288043209462809150, [0x79cd7a2e]);
  (293094847697327370, [0x5df1]);
  (297632306757434730, [0x68376a23]);
  (337035576308240300, [0x88e191cc]);
  (347421668649735340, [0x4e2d]);
  (364349347148753070, [0x4f55]);
  (370147707024745330, [0x4eba]);
  (381502815260061000, [0x4ed6]);
  (391483594680476100, [0x6b21]);
  (397268690896628000, [0x5bb6]);
  (405629074835922500, [0x65f66642]);
  (408538070216317500, [0x4e00]);
  (427826814036980500, [0x6b64]);
  (438094979432676600, [0x7684]);
  (445938794060590700, [0x5207]);
  (462060342883467900, [0x8eab]);
  (464713438508712300, [0x513f5152]);
  (470736616005444600, [0x8005]);
  (471793466744867100, [0x5c11]);
  (472803576343517500, [0x56fd570b]);
  (489701668182545700, [0x5929]);
  (500614332025202500, [0x5730]);
  (508419286778903500, [0x5e74]);
  (527353841389413300, [0x7c7b985e]);
  (543211998338501450, [0x4f599918]);
  (552678520992609300, [0x98059879]);
  (572942790366090200, [0x81ea]);
  (575017056997077600, [0x4e8b]);
  (575340028614116100, [0x583162a5]);
  (576478715175360450, [0x80a1]);
  (577176440148318800, [0x65e5]);
  (587950739787944250, [0x4f4d]);
  (591499197980497600, [0x8a718bdd]);
  (605670449250766300, [0x8fb9908a]);
  (609068158429517900, [0x59048655]);
  (615987682348493700, [0x4e6666f8]);
  (623815020076741500, [0x7d1a7ea7]);
  (624473783987422150, [0x5b83]);
  (626949654850215900, [0x7701]);
  (636616266071762000, [0x523b]);
  (638804206989887700, [0x65b9]);
  (645344544495548900, [0x90e8]);
  (646491158204313350, [0x884c]);
  (648487896755700200, [0x5019]);
  (653484629489944900, [0x6211]);
  (664394366218669000, [0x6708]);
  (670487621318184700, [0x662f]);
  (673032827638551000, [0x5757584a]);
  (676530451919095600, [0x822c]);
  (682252836735123000, [0x7b49]);
  (686831949954716400, [0x4fe950067ae0]);
  (695052236852976000, [0x4e45]);
  (696671705444974000, [0x7b147b46]);
  (697628650546589100, [0x6587]);
  (703279871572923400, [0x671f]);
  (705930984127756500, [0x5c465c4a]);
  (712564101302965600, [0x65cf]);
  (713848228097798100, [0x4e8c]);
  (719668657083435000, [0x4e3e8209]);
  (721395815734301050, [0x54689031]);
  (722799347545939400, [0x6848]);
  (724761943991614300, [0x53bf7e23]);
  (725303950738548100, [0x5e02]);
  (725666927543606000, [0x4f1a6703]);
  (727687198275358000, [0x533a5340]);
  (730318929107095300, [0x754c]);
  (731854467915414800, [0x4e0b]);
  (737422506418770500, [0x8eca8f66]);
  (738864343961197700, [0x4f195925]);
  (742025829599368000, [0x8f2a8f6e]);
  (742670300143632200, [0x959395f4]);
  (747076299123035300, [0x5dde]);
  (747527767158487850, [0x8def]);
  (747981282675027000, [0x4e09]);
  (751921537461629900, [0x6821]);
  (755043039396422300, [0x6876]);
  (761075018419774600, [0x75c5]);
  (767494334183680600, [0x79d1]);
  (768326516517429800, [0x5b50]);
  (769446976418716100, [0x53cc96d9]);
  (773470507637906000, [0x6751]);
  (778276237133283900, [0x5565]);
  (780768577978529600, [0x8001]);
  (783973980607538000, [0x6bb5]);
  (784627577705516500, [0x573a5834]);
  (784955985225635500, [0x6cd5]);
  (786614398027189000, [0x9577957f]);
  (787961219732275700, [0x77408457]);
  (788641494464551000, [0x7236]);
  (792823288432883100, [0x672c]);
  (806941932836937600, [0x7269]);
  (811126643830487600, [0x8272]);
  (813724192470813500, [0x515a9ee8]);
  (818669020012211700, [0x9662]);
  (819594952553491400, [0x59826d3e]);
  (823871138487299600, [0x5c40]);
  (826827018711454000, [0x8f298f88]);
  (827328272893808500, [0x5fc3]);
  (827832052296804100, [0x8a00]);
  (833547893680799000, [0x79d2]);
  (837920174782182200, [0x93ae9547]);
  (838480400337049200, [0x67d0]);
  (841909307684912500, [0x520a]);
  (844859374124582100, [0x673a6a5f]);
  (852963495124894800, [0x4ea9755d]);
  (853614963227014200, [0x57ce]);
  (857615496688384100, [0x578b]);
  (863211362053188600, [0x62366237]);
  (864660662783445100, [0x958095e8]);
  (866874775371166500, [0x961f968a]);
  (867623842544082400, [0x52675287]);
  (868378563107620700, [0x4e3a70ba]);
  (869905310320699400, [0x7528]);
  (876256650892932000, [0x5f0f]);
  (883919973495023600, [0x7247]);
  (884808868236748200, [0x6761689d]);
  (886610718787016000, [0x665a6d41]);
  (891262720350505300, [0x62406e2f]);
  (892219665452120500, [0x56e25718]);
  (898162007499200500, [0x7ad9]);
  (901271066206203600, [0x5df2]);
  (902329277139257300, [0x99289986]);
  (903398806050932100, [0x4e619109]);
  (911224025740907000, [0x7d447ec4]);
  (917213839899013900, [0x680f6b04]);
  (924909944012626700, [0x538256db59bb5ee0]);
  (926252246045840800, [0x5e45]);
  (928992143464652100, [0x5f205f35751f]);
  (931809231161321900, [0x6b3e]);
  (933248104906531700, [0x5e97]);
  (937693281163615200, [0x51675185]);
  (942345282727104400, [0x680b68df]);
  (943945316861748500, [0x5b63]);
  (945571368948926500, [0x5f79]);
  (947224299144047600, [0x8872]);
  (952353628582802600, [0x4efd]);
  (961534383508115000, [0x7406]);
  (963476192093825100, [0x793e]);
  (969538654275468700, [0x60c5]);
  (975992506389225800, [0x5957]);
  (992900139393619200, [0x59a87cfb]);
  (1001123949217316200, [0x4e1a696d7248]);
  (1007007999219609800, [0x53f06218623077ff7926]);
  (1016539017200042100, [0x591a]);
  (1019929172367610300, [0x7bc7]);
  (1023438304348737300, [0x51e05e7e]);
  (1030849101564109600, [0x697c6a13]);
  (1034771172879437600, [0x521d]);
  (1038853372331463200, [0x5377]);
  (1043109333773342800, [0x98a898ce]);
  (1047554510030426100, [0x898b89c1]);
  (1052206511593915500, [0x7136836f85e5]);
  (1057085528010858500, [0x5bfa74f6]);
  (1067621579576641200, [0x516c652f]);
  (1073337420960636000, [0x5fc5]);
  (1079399883142279600, [0x4fe15956734e73ed]);
  (1092753022404731800, [0x5e84838a]);
  (1108168090387457700, [0x9910]);
  (1136936297632635700, [0x682a]);
  (1162067740460726400, [0x5f375f3a]);
  (1177482808443452100, [0x88689cf49e23]);
  (1195714964122847600, [0x536154c156ed571276d2]);
  (1218029319254268600, [0x5e085e2b672b]);
  (1246797526499446600, [0x57e07f729091]);
  (1287344037310263200, [0x4faa5115541b]);
  (1356658755366257700, [0x66f9])
].
(** prob_emit.go:51215-51215 probEmit, state 239 *)
Definition emit_239 : list (Z * list Z) := [].
(** prob_emit.go:51216-51219 probEmit, state 240 *)
Definition emit_240 : list (Z * list Z) := [
  (11261887810814913, [0x4eba]);
  (223952695702690900, [0x4eec5011])
].
(** prob_emit.go:51220-51221 probEmit, state 241 *)
Definition emit_241 : list (Z * list Z) := [
  (0, [0x4f4d])
].
(** prob_emit.go:51222-51310 probEmit, state 242 *)
Definition emit_242 : list (Z * list Z) := [
  (163762902521784470, [0x4e0a]);
  (211024861329515500, [0x88e191cc]);
  (218724672946874540, [0x51675185]);
  (222652663657451100, [0x4e2d]);
  (261973186488829700, [0x5916]);
  (314717249940803100, [0x8d77]);
  (326667615519640500, [0x65b9]);
  (332224600635121600, [0x4e0b]);
  (337222170711474960, [0x5317]);
  (337492999755926400, [0x5730]);
  (341988794796254600, [0x8fb9908a]);
  (399727796493275600, [0x5357]);
  (399887498417024200, [0x59048655]);
  (409880423315611200, [0x53e3]);
  (426773338533533100, [0x533a5340]);
  (429386481572749600, [0x524d]);
  (433476135089107200, [0x5cb8]);
  (438992661961201800, [0x573a5834]);
  (462755024144153000, [0x5934982d]);
  (483742063380210500, [0x7a7a]);
  (529408175530158500, [0x5883]);
  (530976835146928500, [0x90ca]);
  (544273525071161500, [0x7dda7ebf]);
  (545637182566116100, [0x65c1]);
  (564190218649190000, [0x959395f4]);
  (567980145908288600, [0x96469678]);
  (571325912527373200, [0x540e5f8c]);
  (582587800338188100, [0x5757584a]);
  (602086217522006700, [0x5e95]);
  (625564258944743500, [0x7586]);
  (634057424298381540, [0x5fc3]);
  (636582102571859900, [0x6cbf]);
  (642130971133625200, [0x58c1]);
  (642733382593963300, [0x6d77]);
  (718602708439744900, [0x6392]);
  (738526511485810500, [0x57ce9662]);
  (739317029436521800, [0x8857]);
  (746727826651894000, [0x4e1c6771]);
  (818640093348214600, [0x89d2]);
  (835825119040880400, [0x56fd570b]);
  (837930459960663800, [0x53855ef3]);
  (859186604159031000, [0x73af74b09672]);
  (864593326286058600, [0x4fa75074]);
  (873294463985021500, [0x897f]);
  (876371629851697000, [0x7aef9014]);
  (882825481965454100, [0x958095e8]);
  (886215637133022200, [0x7ffc]);
  (918492976359327300, [0x6e7e7063]);
  (933908044342053100, [0x9053]);
  (939623885726048000, [0x53f0]);
  (952140200021448600, [0x9e93]);
  (959039487170143800, [0x513f51525ead]);
  (992686710832265000, [0x6ee86ff1]);
  (1003222762398047700, [0x98029876]);
  (1015001065963686000, [0x5802]);
  (1043769273208864000, [0x8352]);
  (1062001428888259500, [0x755490e8]);
  (1113083991264858600, [0x985b98a0]);
  (1153630502075675100, [0x7de37f18])
].
(** prob_emit.go:51311-51515 probEmit, state 243 *)
Definition emit_243 : list (Z * list Z) := [
  (205563275770226860, [0x5e74]);
  (222279772964862540, [0x524d]);
  (258039048576253600, [0x65e5]);
  (282449840458240800, [0x4ee3]);
  (286364735855945400, [0x5929]);
  (294089202200213860, [0x5728]);
  (299684713121741540, [0x4f866765]);
  (314873467978315200, [0x65f66642]);
  (350887342497503600, [0x540e5f8c]);
  (353806555401312200, [0x671f]);
  (361404075312622400, [0x6708]);
  (366160241591264900, [0x53bb]);
  (376206396280138570, [0x4eca]);
  (380842884798095050, [0x54689031]);
  (406541143752583340, [0x5348]);
  (407845811807460500, [0x671d]);
  (423479988989521800, [0x521d]);
  (427105864312026700, [0x5e95]);
  (442690452593019400, [0x4e0a]);
  (453398200694411000, [0x672b]);
  (455648490590803600, [0x5b63]);
  (467728623696876600, [0x624d]);
  (474649706835195900, [0x6c496f22]);
  (476909378622188900, [0x8fd1]);
  (484974054102946700, [0x665a]);
  (487296896926352400, [0x959395f4]);
  (497613303953285400, [0x591c]);
  (505603291658897600, [0x5b8b]);
  (515428093900761600, [0x7d007eaa]);
  (523842874275798800, [0x4e0b]);
  (527380658183964000, [0x4e00]);
  (529527264173451800, [0x7bc08282]);
  (533178005807698100, [0x65ec]);
  (540115740380015600, [0x6668]);
  (554773327922293550, [0x4e8c]);
  (560392783756657750, [0x4e94]);
  (562929505144500000, [0x53f68449]);
  (566415112695397800, [0x5f80]);
  (569321891742865500, [0x5e866176]);
  (570451847268258750, [0x5510]);
  (574658413796810000, [0x6649664b]);
  (582514646047120300, [0x51675185]);
  (588032719320321300, [0x88e191cc]);
  (597529873433176600, [0x513f5152]);
  (602884881229010700, [0x4e09]);
  (605371334535540300, [0x65e9]);
  (610220144034869700, [0x6e05]);
  (610750086981519600, [0x56db]);
  (617225195339378450, [0x9b4f]);
  (627484482355619300, [0x6b21]);
  (628876029161816700, [0x660f]);
  (629003498905016740, [0x79e6]);
  (646220417438010400, [0x6cbb]);
  (650081901050788400, [0x56fd570b]);
  (655252681267339000, [0x53866b77]);
  (656252689600797400, [0x79cb]);
  (663727932265329200, [0x4e2d]);
  (666844591489171100, [0x53e4]);
  (669486254533565300, [0x660e]);
  (675799988160605500, [0x9756]);
  (680384124095429600, [0x6bb5]);
  (689065880071296700, [0x516d]);
  (689532081381877850, [0x9f4a9f50]);
  (695302913143942550, [0x4e16]);
  (697302979814609500, [0x5e386625]);
  (699860663993574500, [0x66f4]);
  (704364736536004800, [0x5fb7]);
  (709937208719814800, [0x51ac]);
  (711963327233797000, [0x9686]);
  (726071187059787600, [0x590f]);
  (730546977123937000, [0x7d427ec8]);
  (732682289570993800, [0x542f555f]);
  (734131590301250550, [0x4e45]);
  (740536792450535600, [0x9633967d]);
  (747798045746906500, [0x65e6]);
  (749912289404287400, [0x90a3]);
  (751202629887878200, [0x4e2a500b]);
  (756994894661148600, [0x6b66]);
  (758380598127291300, [0x4efd81f3]);
  (769694863737279360, [0x8a958bde]);
  (770217058135394600, [0x81fe]);
  (772333539254598900, [0x5915]);
  (772869733568737400, [0x5143]);
  (776148715851036550, [0x5148]);
  (788553980718034400, [0x5047]);
  (789819820405226700, [0x4e86]);
  (799861695179931500, [0x756a]);
  (801280158679127100, [0x516b751f]);
  (802719032424337000, [0x56de]);
  (804916923096214600, [0x6587]);
  (811025692294198400, [0x4e5d91d1]);
  (817532051628904600, [0x5316]);
  (826309612717143200, [0x4e506a02]);
  (830048365924305300, [0x517395dc]);
  (839009581793273900, [0x6df1]);
  (840056711780003500, [0x77ac]);
  (845463433907031000, [0x664c]);
  (847710719492237000, [0x5206]);
  (848853589074599100, [0x5b50]);
  (850009671314706800, [0x8d758d99]);
  (853560340160397700, [0x6614]);
  (863695589586426500, [0x5341]);
  (866398456825218400, [0x665366c9]);
  (867777789038452000, [0x5149]);
  (879556092604090400, [0x534a]);
  (881130928300904300, [0x7d717edf]);
  (889400099885415700, [0x9650]);
  (891139274156602600, [0x671b]);
  (896545996283630000, [0x4e034f0f]);
  (900320029081914800, [0x5019]);
  (906262371128994800, [0x5c3e]);
  (912580261291148000, [0x9732]);
  (917025437548231400, [0x6691]);
  (926556455528664000, [0x9806987a]);
  (931685784967419000, [0x5916]);
  (945793644793409500, [0x5bd2695a96e8]);
  (955324662773842100, [0x4e4b]);
  (962223949922537000, [0x5c816b72]);
  (965860714339624600, [0x606f7199]);
  (973556818453237400, [0x9996]);
  (977639017905263000, [0x5bb5]);
  (981894979347142500, [0x970e]);
  (986340155604225900, [0x5546773c]);
  (990992157167715200, [0x86f087c4]);
  (995871173584658500, [0x51c96dbc]);
  (1001000503023413500, [0x68626968]);
  (1006407225150441100, [0x5ea679cd7a2e964d]);
  (1018185528716079300, [0x6b63]);
  (1024639380829836600, [0x523b66ae]);
  (1038949465193903900, [0x4f596ee16eff9918]);
  (1087500246772073900, [0x70b99ede]);
  (1134500609696647500, [0x62dc7334]);
  (1156814964828068400, [0x99ac9a6c]);
  (1185583172073246600, [0x4e1151546714725b72d7732a86c78c6c919c96de9e219f209f8d9f99]);
  (1226129682884063000, [0x7dd27eea7f8a8d70]);
  (1295444400940057500, [0x5bc58707])
].
(** prob_emit.go:51516-51516 probEmit, state 244 *)
Definition emit_244 : list (Z * list Z) := [].
(** prob_emit.go:51517-51548 probEmit, state 245 *)
Definition emit_245 : list (Z * list Z) := [
  (118072450764916570, [0x68376a23]);
  (181146486425797780, [0x8aaa8bf4]);
  (227672481502216600, [0x7684]);
  (228075152386454550, [0x770b]);
  (261561113070154730, [0x7b49]);
  (266582706591985000, [0x8a00]);
  (267902235633868300, [0x8a718bdd]);
  (308591162799161800, [0x51675185]);
  (376163430366035150, [0x6b62]);
  (388257357549817250, [0x5730]);
  (465576346373165400, [0x4e86]);
  (497908060023081900, [0x5426]);
  (564423217330133700, [0x8ad68bba]);
  (673064918887562950, [0x822c]);
  (676769046055597800, [0x5916]);
  (730399516962295350, [0x77408457]);
  (809892504449284100, [0x898b89c1]);
  (834008710130972900, [0x751a]);
  (854075779677188200, [0x5df2]);
  (894622290488004500, [0x54c9]);
  (1004483519354815400, [0x6c146c23]);
  (1073798237410810000, [0x4e9196f2])
].
(** prob_emit.go:51549-51549 probEmit, state 246 *)
Definition emit_246 : list (Z * list Z) := [].
(** prob_emit.go:51550-51550 probEmit, state 247 *)
Definition emit_247 : list (Z * list Z) := [].
(** prob_emit.go:51551-51551 probEmit, state 248 *)
Definition emit_248 : list (Z * list Z) := [].
(** prob_emit.go:51552-51552 probEmit, state 249 *)
Definition emit_249 : list (Z * list Z) := [].
(** prob_emit.go:51553-51553 probEmit, state 250 *)
Definition emit_250 : list (Z * list Z) := [].
(** prob_emit.go:51554-51554 probEmit, state 251 *)
Definition emit_251 : list (Z * list Z) := [].
(** prob_emit.go:51555-55035 probEmit, state 252 *)
Definition emit_252 : list (Z * list Z) := [
  (363041957402826800, [0x6709]);
  (379990843317608700, [0x4e3a70ba]);
  (385319003130863600, [0x4f866765]);
  (389712745585973400, [0x5230]);
  (403176872407074600, [0x884c]);
  (403308398837008600, [0x73b073fe]);
  (409466090723406300, [0x51fa]);
  (412080709775274400, [0x4e8e65bc]);
  (414708882879721800, [0x6210]);
  (437535220855292800, [0x80fd]);
  (449390291754512100, [0x5f97]);
  (454322044842459300, [0x5165]);
  (455751161543728200, [0x7528]);
  (462910441554538000, [0x4ee5]);
  (471280783523374000, [0x793a]);
  (471575717609277100, [0x9053]);
  (477516588278338000, [0x751f]);
  (480764970805196300, [0x7acb]);
  (482446460480728940, [0x5b9a]);
  (488821521821370600, [0x9577957f]);
  (490822844636152500, [0x6301]);
  (490994973860191750, [0x5e03]);
  (505018484984009400, [0x5316]);
  (509619901687999600, [0x53bb]);
  (512803662062066500, [0x52a852d5]);
  (513792021678459000, [0x5408]);
  (516099388516291200, [0x8d77]);
  (516233794697412750, [0x59cb]);
  (517400148571524450, [0x5728]);
  (518740412987845700, [0x52a0]);
  (522090860909090800, [0x5236]);
  (523433423368805300, [0x53d1767c]);
  (523484219501576750, [0x8a088ba1]);
  (525653279116301100, [0x5f00958b]);
  (527499510208282400, [0x898b89c1]);
  (529866703878334460, [0x8fc7904e]);
  (534540132737900000, [0x8981]);
  (539419803950072400, [0x77408457]);
  (544097345872378800, [0x5e02]);
  (545290798541851700, [0x8fdb9032]);
  (545412390930558900, [0x7e8c7eed]);
  (546616811854837200, [0x5347]);
  (548727392936479700, [0x4f1a6703]);
  (549647195246851350, [0x62ec]);
  (549901376665793300, [0x6c42]);
  (554708139847278700, [0x660e]);
  (555782033329210550, [0x4e0b]);
  (558302187476019100, [0x610f]);
  (559589292582704400, [0x662f]);
  (560807994193028700, [0x671b]);
  (562675922221541200, [0x89e3]);
  (564343891141406750, [0x9ad8]);
  (564715080255180200, [0x53d6]);
  (567032016763258300, [0x7406]);
  (567183160953332800, [0x5927]);
  (568781048216602800, [0x4f5c]);
  (569193800997261000, [0x4e0a]);
  (569968446212008400, [0x6da86f32]);
  (573475800715553900, [0x9020]);
  (577177496479574350, [0x53d7]);
  (577848369786020650, [0x50995907]);
  (580204945501451400, [0x4f4f]);
  (582413863659349000, [0x5fc3]);
  (583184812061780460, [0x770b]);
  (584033332251347100, [0x5934982d]);
  (584155139309720600, [0x77e5]);
  (584528649297180700, [0x53d88b8a]);
  (588567080742919700, [0x964d]);
  (588867246059091500, [0x8aaa8bf4]);
  (591780147394835950, [0x5e9461c9]);
  (592978885186616300, [0x62a48b77]);
  (593844010519458100, [0x5f375f3a]);
  (594295264105525600, [0x8cfc8d2d]);
  (594581319127760400, [0x8a728be5]);
  (597807796695361900, [0x7b97]);
  (598674460532736400, [0x653e]);
  (598707625278915600, [0x517395dc]);
  (599173090336740350, [0x4f9b]);
  (599289795918509400, [0x62186230]);
  (600751761127174000, [0x4e3b]);
  (602304163507598100, [0x5982]);
  (602803992193831300, [0x6b62]);
  (603575861946850600, [0x540d]);
  (604494222361085850, [0x590d]);
  (605483192894039850, [0x8abf8c03]);
  (605927875234778300, [0x6ce8]);
  (607699424644956700, [0x8dcc]);
  (608619998069502000, [0x79f07a31]);
  (610030874900823900, [0x4efb]);
  (610524289298507000, [0x51fb64ca]);
  (612095125341957050, [0x4e8b]);
  (612237433605620600, [0x4e1a696d]);
  (614028755032928800, [0x591f5920]);
  (615107430279735800, [0x65ad65b7]);
  (615351988973403700, [0x8eab]);
  (615636428378555200, [0x9732]);
  (620661903039310800, [0x5efa]);
  (620837640925031700, [0x5411]);
  (621606236316479700, [0x624b]);
  (622223296267411550, [0x8a348bc9]);
  (623330960949659700, [0x9664]);
  (623447715195263500, [0x4e2d]);
  (624913373953956900, [0x51b36c7a]);
  (626357089667474700, [0x6536]);
  (626916270994052600, [0x606f]);
  (626938263516683500, [0x7e547ec7]);
  (627081332929740900, [0x53ca]);
  (627423326754161400, [0x5c04]);
  (628389410554665950, [0x636263db]);
  (629342385982442800, [0x5bf95c0d]);
  (629726133631701300, [0x899689c6]);
  (631230092707385600, [0x5f85]);
  (631632692894598300, [0x5426]);
  (631840377289082240, [0x81f4]);
  (632861978930092200, [0x96c6]);
  (633271216566420700, [0x56de]);
  (634485353011160500, [0x5c11]);
  (634948949680992050, [0x6cd5]);
  (636509980419156400, [0x7f6e]);
  (637997449931877000, [0x82cf8607]);
  (639345395896123800, [0x81f3]);
  (639619676083034300, [0x597d]);
  (639769601148598400, [0x62e964c7]);
  (640510019916763400, [0x8fd1]);
  (640850692759020000, [0x5584]);
  (640939205124917600, [0x843d]);
  (641892501190789900, [0x4ea77522]);
  (642430343440065800, [0x5bdf]);
  (642661735753105500, [0x8a718bdd]);
  (642738985660384700, [0x6cbb]);
  (643514784741478700, [0x65bd]);
  (644100609498315450, [0x616e8651]);
  (644388266600436400, [0x60f3]);
  (645560489440430700, [0x52a9]);
  (645932138394886200, [0x80a1]);
  (646118482119778200, [0x632563ee]);
  (646171787025091500, [0x65b0]);
  (647351741718207000, [0x76ea8361]);
  (647446202287945900, [0x53ef]);
  (648368492834768500, [0x4e0e8207]);
  (649258117534581400, [0x90099078]);
  (649809538838070500, [0x4fe1]);
  (650364017663717850, [0x8b498bc1]);
  (650586672918519500, [0x7d667ed9]);
  (651215561861471000, [0x4ef750f9]);
  (652969248439242300, [0x6fc0]);
  (653828975757842100, [0x5b58]);
  (654493142218927300, [0x6bd4]);
  (654841422936673400, [0x767d]);
  (655220100930692400, [0x8f498f6c]);
  (655614867142609550, [0x98189886]);
  (656291041995830700, [0x4ea4]);
  (656778956026532250, [0x91cd]);
  (659681197163398800, [0x8b938ba9]);
  (660508534500901940, [0x5c55]);
  (661918426938852100, [0x6b7b]);
  (663475184535748900, [0x8a8d8ba4]);
  (664654857071508100, [0x4f4e]);
  (664670894277861100, [0x6620]);
  (665556925044101200, [0x4e3481e8]);
  (666418228816709300, [0x8b588bc6]);
  (667040365728417400, [0x7d507ed3]);
  (667451787357054000, [0x5bb3]);
  (667682924986786100, [0x503c]);
  (667782147750011800, [0x81ea]);
  (668163416342830000, [0x79bb96e2]);
  (668896875206849400, [0x91cf]);
  (669114612500811900, [0x8fbe9054]);
  (669181704083335300, [0x76d876e4]);
  (670159624538986300, [0x51c66c346e96]);
  (671730695104679100, [0x529e8fa6]);
  (671937449141114750, [0x8f098f7d]);
  (672352244066986800, [0x8b808bfb]);
  (672786159526945700, [0x6d4b6e2c]);
  (673012541861329200, [0x675f]);
  (673888050868180300, [0x8ff0]);
  (676074999081745400, [0x4e607fd2]);
  (676471253202539800, [0x65578d25]);
  (676597664054587700, [0x4f7f]);
  (676724234905948500, [0x7b54]);
  (677395926638917200, [0x524d]);
  (677541752403001700, [0x583162a5]);
  (678017160136944950, [0x75977642]);
  (678090500807632500, [0x7cfb]);
  (678237343712139100, [0x8acb8bf7]);
  (678826881160206950, [0x8cac8d23]);
  (679345592956818400, [0x4ed8]);
  (680222382455880300, [0x63a5]);
  (681106927604040300, [0x5f395f48]);
  (681239340372843200, [0x6240]);
  (681542658140935800, [0x88c588dd]);
  (681561646083649300, [0x554f95ee]);
  (683169643977069300, [0x7d397ecd]);
  (683556342061418900, [0x589e]);
  (683595094241713900, [0x4ea1]);
  (684392841443516500, [0x4e86]);
  (685059249241008800, [0x517b990a]);
  (685967987221214950, [0x91ca91cb]);
  (686087129411638850, [0x7559]);
  (687065474042545900, [0x53568ce3]);
  (688073750380344600, [0x92b79500]);
  (688256324728655850, [0x5b9e5be6]);
  (688296942113454800, [0x835085a6]);
  (688439233020682300, [0x552e]);
  (688785641925417300, [0x8a028ba2]);
  (689235724518269500, [0x901a]);
  (689873389951627750, [0x4e708cb7]);
  (689894027656788100, [0x5c45]);
  (691035711048778700, [0x4e88]);
  (691307478750278650, [0x5f80]);
  (691558998480444600, [0x8d70]);
  (692190579527256900, [0x5f537576]);
  (692359677009951200, [0x6b226b61]);
  (692741195064919300, [0x547d]);
  (692911226986861700, [0x8868]);
  (693465835916996000, [0x514d]);
  (694109614964480900, [0x7b11]);
  (694131145807496600, [0x50cf]);
  (694346709590042600, [0x5931]);
  (694411469441199600, [0x4ece5f9e]);
  (695518852378451800, [0x8b028c13]);
  (695649942631002200, [0x63e1]);
  (697347701412204000, [0x8b708bae]);
  (697481212780501000, [0x8a2a8bbf]);
  (697548035369021600, [0x6563]);
  (697726447548371700, [0x8ad68bba]);
  (698263601928562850, [0x958095e8]);
  (698286046098783900, [0x8db3]);
  (698961724345071800, [0x4f3c]);
  (699528298098639600, [0x6392]);
  (699892597226489700, [0x7981]);
  (700763164007637300, [0x56fd570b]);
  (701920316470404800, [0x79fb]);
  (702106709814211000, [0x8eca8f66]);
  (703114570214730100, [0x6089]);
  (704945121745954500, [0x53cd]);
  (705329737604702340, [0x7248]);
  (705812597065321900, [0x9000]);
  (705957910726155100, [0x540c]);
  (706176277912284340, [0x4f4d]);
  (707349025289105800, [0x5206]);
  (707398189498552400, [0x5bb6]);
  (708138568003980800, [0x5de5]);
  (708784693512269500, [0x5b88]);
  (709084319204593000, [0x574f58de]);
  (709384845351139300, [0x6ee16eff]);
  (710114867473023700, [0x670d]);
  (710266574202499000, [0x64906491]);
  (710291881048135700, [0x5175]);
  (711539827970969200, [0x9001]);
  (712285812137799600, [0x7d047ea6]);
  (713037403080256500, [0x5feb]);
  (713454504831990300, [0x6ec5706d]);
  (714584163502119900, [0x4f2450b7]);
  (714637017625971900, [0x7834]);
  (715246856450880750, [0x6015]);
  (715486505081086000, [0x7e2e7f29]);
  (716882500906029400, [0x88c2]);
  (717234566266298000, [0x5bfc5c0e]);
  (717778637249309800, [0x5f15]);
  (718380554251289900, [0x529b]);
  (719985014672767000, [0x8cc78d44]);
  (721134936192652000, [0x626c63da]);
  (721445714801310600, [0x7bc48303]);
  (722441030852506000, [0x538b58d3]);
  (722727235970597400, [0x4eba]);
  (722956791308130950, [0x7ba1]);
  (723014262574080600, [0x5f559304]);
  (723071766888488600, [0x53f0]);
  (723302115392299900, [0x5145]);
  (724520227901813900, [0x8a2d8bbe]);
  (724724697083609700, [0x4e16]);
  (724783193721721200, [0x4ee3]);
  (725017523061518500, [0x5730]);
  (725723823819966700, [0x7f72]);
  (725842027143422300, [0x5546]);
  (726197477754634100, [0x85cf]);
  (726286538173167350, [0x7d557edd]);
  (726494654793549800, [0x5f205f35]);
  (726643575148696550, [0x6389]);
  (726882309968142200, [0x56fe5716]);
  (727031809173740900, [0x724c]);
  (727121616094909300, [0x51995beb]);
  (727842989827278500, [0x653b]);
  (728691222722852850, [0x8003]);
  (728934902404810000, [0x5a5a]);
  (729179177335436450, [0x505c]);
  (729362775918221650, [0x8ca18d22]);
  (729577401173075750, [0x5b665b78]);
  (730008038565744400, [0x67436b0a]);
  (730224054696650350, [0x5217]);
  (730285859395774700, [0x901f]);
  (730595457166287500, [0x544a]);
  (731061658476868600, [0x8b1d8c22]);
  (731467465183290700, [0x8a188bb0]);
  (731530043408111300, [0x4e265e76]);
  (731561347211779000, [0x8cbb8d39]);
  (732315593402142200, [0x53eb]);
  (732536657758709900, [0x79ef7a4d]);
  (732599908867713000, [0x968f96a8]);
  (732821603336976400, [0x8dc38e8d]);
  (733139164734365100, [0x4e4f]);
  (733362059270207000, [0x9192]);
  (733489650994055600, [0x9867987e]);
  (733681344343490700, [0x4e497fa9]);
  (734162191559446600, [0x5f0368c4]);
  (734419591958963900, [0x67406bba]);
  (734580804310499950, [0x7591]);
  (734774602820767900, [0x542c807d]);
  (735260748649392300, [0x6f14]);
  (735618763677849700, [0x671f]);
  (735749269405997300, [0x6551]);
  (736141811617607800, [0x812b8131]);
  (736470111321538400, [0x4f2050b3]);
  (737163069052383250, [0x5bb9]);
  (737262456173368700, [0x804c8077]);
  (737561211582301700, [0x627e]);
  (737927573357608500, [0x975e]);
  (738429330556806500, [0x542b]);
  (738664348291301700, [0x75c5]);
  (738731597789465100, [0x4e3e8209]);
  (738765239505509800, [0x59048655]);
  (738899919660547700, [0x7d2f969c]);
  (739001048946092200, [0x99ac9a6c]);
  (739068525331918300, [0x6b63]);
  (739677870480706100, [0x505a]);
  (739949886969412800, [0x9760]);
  (740052084218982100, [0x5225522b]);
  (740086173191529700, [0x52b152f5]);
  (740804739157617100, [0x6c146c23]);
  (741183201677134400, [0x66ff]);
  (741286667801212000, [0x548c]);
  (741321180312339800, [0x8fd0904b]);
  (741597710042651300, [0x80af]);
  (742536684077635200, [0x914d]);
  (742886701935856100, [0x5f815fb5]);
  (744157008361481500, [0x690d]);
  (744834010769078900, [0x7d22]);
  (745084592607733700, [0x8a318bb8]);
  (746093246692351100, [0x5490]);
  (746310716875919860, [0x9632]);
  (746710644694911700, [0x7d0d7eb3]);
  (746856470458996200, [0x932294b1]);
  (747002509185206900, [0x8840]);
  (747075608603666600, [0x65e07121]);
  (747920115183246200, [0x67e5]);
  (748215536372989300, [0x80b2]);
  (748474747775301800, [0x611b7231]);
  (748660311012812900, [0x9152]);
  (748883442380956500, [0x5c5e5c6c]);
  (748957930280117500, [0x8a00]);
  (749743421507881600, [0x5019]);
  (750119644675500800, [0x593a596a]);
  (750724561453946100, [0x519b79cd7a2e8ecd]);
  (751485889836260200, [0x5012]);
  (751677131049642600, [0x9762]);
  (752099153544409700, [0x5c01]);
  (752253058923000000, [0x4fdd]);
  (752445774342058300, [0x958995ed]);
  (752677524156094500, [0x52dd80dc]);
  (752754893599025500, [0x51cf6e1b]);
  (753531898285218700, [0x5c0f6d88]);
  (754708844001166400, [0x627f67d370ed71b1]);
  (754787801762868150, [0x98ef996d]);
  (755223187370482800, [0x6ed1]);
  (755461471835890800, [0x4ed35009]);
  (756259879270712900, [0x76d684cb]);
  (756621252882209200, [0x4e6666f8]);
  (757510147623933800, [0x7d937ecf]);
  (757713275867655600, [0x6d41]);
  (758161615726053100, [0x6258]);
  (758284239898377500, [0x62c564d4]);
  (759394676971801000, [0x6253]);
  (759518823480607500, [0x602a]);
  (759892190435812300, [0x7d277dca]);
  (760643132638025500, [0x753596fb]);
  (760852732379400500, [0x5224]);
  (761231122572313450, [0x6559]);
  (761484180488885200, [0x4f0f]);
  (761568675635441600, [0x547c]);
  (761737880413544000, [0x8df58e10]);
  (761949789795661700, [0x6297]);
  (762417577167932700, [0x9996]);
  (763488939461831100, [0x8afe8bfa]);
  (763747783437241350, [0x5f526b78]);
  (764007299153825200, [0x6539]);
  (764093954271899500, [0x60c5]);
  (764528359820365000, [0x76ca]);
  (765315077164706400, [0x5fa179a6]);
  (765622702105170600, [0x5229]);
  (765754831611290700, [0x89e689f8]);
  (765887135930479600, [0x7e5e7ed5]);
  (765931276297561300, [0x9a579a8c]);
  (766152270862641700, [0x8def]);
  (766285102407521200, [0x822a]);
  (766462486046050400, [0x6b3e]);
  (766773666559436000, [0x60dc]);
  (767175183940261800, [0x53866b77]);
  (767758014552227500, [0x68076a19]);
  (768118375302557300, [0x6398]);
  (768208668762416600, [0x70e771d2]);
  (768570660107930000, [0x706b]);
  (768616001301180150, [0x653f]);
  (768752148361012300, [0x737283b7]);
  (768933966592918150, [0x4ee4]);
  (769116116005757300, [0x6bd2]);
  (769161705247486000, [0x99db9a76]);
  (769848049739984200, [0x89ba89c9]);
  (769893973965820100, [0x8a558bc4]);
  (770123911983892200, [0x6e21]);
  (770492916092637600, [0x8c61]);
  (771002530352838500, [0x5269]);
  (771421427870205500, [0x6e05]);
  (772358641853091800, [0x5b8c]);
  (772452848171882000, [0x7de87f16]);
  (772594324262444850, [0x8d8a]);
  (772972575304442800, [0x624e627064fe]);
  (773019957442263550, [0x573a5834]);
  (773304722703514700, [0x5ff5]);
  (773781140946226600, [0x636e64da]);
  (774740841210327500, [0x7b49]);
  (774982212314720500, [0x4f545360]);
  (775224167429129450, [0x907f]);
  (775758538387381400, [0x5149]);
  (775807259460208800, [0x58f08072]);
  (776295780216813700, [0x53e3]);
  (776688322428424300, [0x7d1a7ea7]);
  (776983743618167500, [0x5916]);
  (777033065444074800, [0x4e714e82]);
  (777626832651196500, [0x7db27f51]);
  (778574234402133850, [0x7f6a]);
  (779076495628763000, [0x594b596e]);
  (780394304866818500, [0x4fee]);
  (780649732847328200, [0x5fe761828e2a]);
  (780700896829002000, [0x56fa]);
  (781111153814679800, [0x6548]);
  (781162554484020200, [0x98a898ce]);
  (781368421772373800, [0x8ac78c08]);
  (783188071667860100, [0x5272]);
  (783450745840431900, [0x8cf48d56]);
  (783661383095773400, [0x63f4]);
  (783766868337622100, [0x76f4]);
  (784031069283906000, [0x5b9c]);
  (784242933769934500, [0x8ca08d1f98df]);
  (784295970101063700, [0x56f4570d]);
  (784668014112454000, [0x7565]);
  (785201918210396000, [0x5e265e36]);
  (785792523954004200, [0x5f31]);
  (785846388754660200, [0x536b885b]);
  (786278354869111900, [0x601d]);
  (786820949797711600, [0x5c71]);
  (787038814807633800, [0x96469678]);
  (787147925565867300, [0x8f448f96]);
  (787585563025847200, [0x8fd89084]);
  (787695272307284400, [0x62797167]);
  (788632693012576700, [0x591a]);
  (788799036272446500, [0x8fc19077]);
  (788910085700849200, [0x8fce]);
  (789299732728761500, [0x6bc06bc1]);
  (790421449481854000, [0x9650]);
  (790760432857305150, [0x70bc7149]);
  (791612952939641100, [0x5438]);
  (791727173397518900, [0x70b88cde8d4f]);
  (792070619642382300, [0x98fe9970]);
  (792588010851178800, [0x886588dc]);
  (792818824571653900, [0x6355]);
  (793108092924937500, [0x7a057a0e]);
  (793922524419106100, [0x6696]);
  (794039415139604300, [0x6b65]);
  (794567120849688600, [0x613f9858]);
  (795156745199416800, [0x6b96]);
  (795928491386559700, [0x4e4e]);
  (795988103906953900, [0x8a0e8ba8]);
  (796706239847820400, [0x6848]);
  (796766317951159400, [0x62fe]);
  (796886582547735500, [0x7a76]);
  (797490084681182500, [0x521b5275]);
  (797853941965573300, [0x518a518c]);
  (798097251088037500, [0x86808755]);
  (798463328373005600, [0x817e9a30]);
  (798769419827173400, [0x8fde9023]);
  (798892119229070300, [0x71df8425]);
  (799014969367371000, [0x5e8a]);
  (799137970612891000, [0x57ce]);
  (799384427915707200, [0x5e7f5ee3]);
  (801693422851837700, [0x9677]);
  (802136321392971000, [0x6d3b]);
  (802390289783447000, [0x672f8853]);
  (802708659998239500, [0x6012]);
  (802772455853672700, [0x73ed]);
  (803028047047127200, [0x5e2d8a668bd5]);
  (803927796047587900, [0x53f95606]);
  (804835714087145000, [0x9012905e]);
  (805817718705242600, [0x8b6f8bd1]);
  (806081223469043100, [0x52125283]);
  (806213236689535300, [0x65746da66f64]);
  (806875929638296300, [0x8dd1]);
  (807075596925928600, [0x805a]);
  (808214637716542200, [0x8272]);
  (809026550160392700, [0x66f4]);
  (809298659171828700, [0x6d89]);
  (809571510637149100, [0x7de97f13]);
  (809639839987262500, [0x4f38]);
  (809708216058302500, [0x5f62]);
  (809845108619036600, [0x62dc]);
  (810532396547812800, [0x51748208]);
  (811016324211887800, [0x594f]);
  (812061265799321900, [0x6599]);
  (812131318341591200, [0x5e73]);
  (812482319052956100, [0x5f79]);
  (813756221630699100, [0x69ae8363]);
  (814399310663728200, [0x66f2]);
  (814830345813840400, [0x5168]);
  (814974438057791600, [0x8f9f95e2]);
  (815698030216409400, [0x72af]);
  (815770678239946000, [0x540e5f8c]);
  (815988939512477700, [0x5c3d76e1]);
  (816426896416879800, [0x571f]);
  (816719936919621500, [0x5949]);
  (817013838674160400, [0x635f640d]);
  (817087449277410700, [0x7a7f]);
  (817456317272196000, [0x6302639b]);
  (818123727980965400, [0x8feb]);
  (818645922379080600, [0x534e617083ef]);
  (818870557441718000, [0x63a78b1b8bb2]);
  (819698563677779300, [0x78e8]);
  (819774178048111700, [0x63a191c7]);
  (819849849637042300, [0x8ff7]);
  (820153109914946700, [0x8017]);
  (820229068900748500, [0x836f85e5]);
  (820838826887560400, [0x7e317eb5]);
  (821529278422214800, [0x683c]);
  (821683361657630400, [0x9813987f]);
  (822147041004610600, [0x507f511f]);
  (822379689422845000, [0x966996aa]);
  (822535089609518300, [0x5750]);
  (822924649899601400, [0x70b99ede]);
  (823237394486020900, [0x4eae]);
  (823472596476064000, [0x6c926ca1]);
  (823551120233534200, [0x5ef6]);
  (823708352970329500, [0x524a7a7a]);
  (823865833317836000, [0x8f158f7b]);
  (824418975779159000, [0x51486838]);
  (825294429042583700, [0x9700]);
  (825534525196337500, [0x4fb5]);
  (825775199199394000, [0x6ccc]);
  (825855552759362300, [0x559c]);
  (826339034764820600, [0x52675287]);
  (826662659642741500, [0x846c]);
  (827068669132671300, [0x54ed]);
  (827394667791392100, [0x659c]);
  (827803666316544600, [0x62df64ec7272]);
  (828296682927330400, [0x4f30558a]);
  (828626716230196000, [0x5177]);
  (828957842360561700, [0x88ad8972]);
  (829456596511665700, [0x65a589c089c2]);
  (831222090035537800, [0x788e]);
  (831476867243417500, [0x80c08139]);
  (832932995755299600, [0x585e]);
  (833019314275980700, [0x5954]);
  (833192175166042600, [0x793c79ae]);
  (833278717793685400, [0x52bf52e2]);
  (833365335382470300, [0x6295]);
  (833452028062368900, [0x5929]);
  (833973768376337800, [0x6e296eab]);
  (834585925950420700, [0x65f66642]);
  (834673683744556500, [0x4f11]);
  (835113631660505000, [0x90fd]);
  (835644136883474400, [0x545854e1900f]);
  (836088384615430500, [0x8a3a8bca]);
  (836624100182354800, [0x8336]);
  (836893038040552000, [0x96be96e3]);
  (837704218694089400, [0x503a50b5]);
  (838066866417006800, [0x788d7919]);
  (838157734210628600, [0x76f8]);
  (838796131271621000, [0x59a8]);
  (839070982566955900, [0x63a2]);
  (839254637347686000, [0x82e6]);
  (839346591377154000, [0x601c6190]);
  (839900098325354000, [0x98db98de]);
  (840085283563461300, [0x9010]);
  (840178004942380600, [0x77ed]);
  (840829473044499800, [0x623f]);
  (840922887343679500, [0x6bd57562]);
  (841203654959099500, [0x7b517bc9]);
  (841579242255080000, [0x62bc]);
  (841673359909086500, [0x7720]);
  (841767566227876400, [0x4e00]);
  (842145281502251000, [0x5531]);
  (842429507179144100, [0x7ffb]);
  (842809735774117800, [0x6094821e]);
  (843191415626788000, [0x65979b25]);
  (843382803245016400, [0x773c]);
  (844055559266322100, [0x7968]);
  (844248609519327800, [0x673a6a5f6c11]);
  (845024559096419000, [0x9644]);
  (845219490932023900, [0x5047]);
  (845708489461443000, [0x8aa48bef]);
  (845904760378228000, [0x4e619109]);
  (846003040484418800, [0x984d989d]);
  (846891935226143400, [0x65cb]);
  (847090545023306300, [0x5524559a]);
  (847389201293081300, [0x6cb9]);
  (847588802157752700, [0x5370]);
  (847788802224419400, [0x5f7b5fb9]);
  (847888952458128400, [0x95b19605]);
  (848089554330814900, [0x6d77]);
  (848190006373415500, [0x932f9519]);
  (848290559423617400, [0x8f9e8fad]);
  (848491969360787500, [0x5b50]);
  (849607034132738500, [0x60d162d4]);
  (850425871870674200, [0x523a7d057ea2]);
  (851044430543945300, [0x4f195925]);
  (851147896668023000, [0x68c06aa2]);
  (851770951643086600, [0x4eab]);
  (851875172600931000, [0x7092]);
  (852293146041201800, [0x5c31]);
  (852712873834735800, [0x52ab6028]);
  (852818081629816200, [0x632b]);
  (853240023184087000, [0x7d197eb8]);
  (854089285188652300, [0x5dee]);
  (854516636266390600, [0x6001611f614b9063]);
  (854945821474544600, [0x5f04]);
  (855593072925106300, [0x4fc3]);
  (855701356638989600, [0x5b89]);
  (855918276463744100, [0x7f3a]);
  (856681222943859800, [0x5634]);
  (856790692029778000, [0x6478]);
  (857229770671526800, [0x5b55]);
  (857560349484977000, [0x4ed7]);
  (857670785719282200, [0x6296]);
  (858002828083012400, [0x656c]);
  (858224803756843700, [0x5b98]);
  (858447273259054800, [0x6e387e6a7ed8904a]);
  (858558693883395200, [0x70df7159]);
  (858893702571923400, [0x8861]);
  (859005622001625000, [0x52116068]);
  (859117666831274000, [0x5403]);
  (859342133816656300, [0x67b6]);
  (859567105790057800, [0x62366237753b756b]);
  (860018573825510500, [0x654c6575]);
  (860131760028878700, [0x99d09a7b]);
  (860472089342049500, [0x5fc661b6]);
  (860585790320757100, [0x60ca963b9a5a]);
  (861385337698376800, [0x5fcd]);
  (861614958924411800, [0x578b]);
  (861729967562735600, [0x6e836f70]);
  (861845108623239800, [0x8cab8d2f]);
  (862075789233031200, [0x632164cb6587]);
  (862654829646501800, [0x5bbd5bec]);
  (863120488229496800, [0x76ee]);
  (863237242475100600, [0x8a9e8bed]);
  (863471160710417800, [0x6cc46d29]);
  (863588325340106900, [0x59566d3e734e]);
  (863940645140838500, [0x6069]);
  (865243209442554200, [0x54105e95]);
  (865840939853400100, [0x4e4882398ca88d279ebc]);
  (866201300603730000, [0x9047]);
  (866683810586905600, [0x5ba15be9]);
  (866925941455806600, [0x5b57]);
  (867047227098327700, [0x6d17]);
  (867533846063445000, [0x89bd89c88d768d95961f968a]);
  (867900370603274500, [0x55fd]);
  (868514246073107000, [0x6cea6dda]);
  (868884388383425600, [0x98109884]);
  (869255905838612000, [0x626e]);
  (869380052347418400, [0x4eac]);
  (869628808694598700, [0x5e085e2b]);
  (869753419302623400, [0x529f]);
  (869878185382439000, [0x9cf49e23]);
  (870128185512647300, [0x5021]);
  (870630068623841600, [0x539f]);
  (870755933964561300, [0x7761]);
  (870881957925790000, [0x53ec]);
  (871260985543168200, [0x5e557bc08282]);
  (871514471103486900, [0x542f555f]);
  (873049028070953000, [0x9b5a9c7c]);
  (873436375230532600, [0x5faa]);
  (873695442732941900, [0x541f]);
  (873825228604501800, [0x54bd82b1]);
  (874476696706621200, [0x7403]);
  (874738476960829000, [0x604b6200]);
  (874869624520610100, [0x9022]);
  (875395941525037600, [0x4eb289aa]);
  (876323714912861400, [0x8fd4]);
  (876723982291827000, [0x5acc]);
  (876991720068898700, [0x91d1]);
  (877394675617499000, [0x5374537b]);
  (877529355772536800, [0x7f759a82]);
  (877799261469453300, [0x51b2885d]);
  (877934487994454600, [0x54cd97ff]);
  (878069897629227500, [0x4f10]);
  (878749709900609600, [0x514b]);
  (879296906888409000, [0x7750775e]);
  (879571632335922800, [0x582a6d6e9003]);
  (880261766199992100, [0x6469]);
  (880400366360780000, [0x4eff]);
  (880539158888264800, [0x6c70]);
  (880678144317170100, [0x4e89722d]);
  (880956696029312700, [0x5305]);
  (881375983855316400, [0x62d3]);
  (881797037108950700, [0x5f71]);
  (881937783085738800, [0x7269]);
  (882078727436062000, [0x71c3]);
  (882502756339950500, [0x6307]);
  (882644499808047900, [0x8058]);
  (882786444473470600, [0x5fd9]);
  (882928590908208300, [0x5e1d8a628be2]);
  (883499205865893700, [0x8cb88d37]);
  (883642369813037500, [0x665366c9]);
  (883785739013222500, [0x5375]);
  (884217084038594300, [0x629a64ab]);
  (884361280170284500, [0x795e]);
  (884505684527507800, [0x6ede6eef90bb9130]);
  (884940152987909000, [0x697c6a1375319ed1]);
  (885376517316686300, [0x4e8f8667]);
  (885961314304928600, [0x5ea6]);
  (886108049474323600, [0x5237]);
  (886402167333405300, [0x4f595e749918]);
  (886993011002021900, [0x72f17344]);
  (887289747124802000, [0x677e]);
  (887438446036959800, [0x6444651d]);
  (887885874076452000, [0x5ba2]);
  (888185275497712500, [0x7d617edc]);
  (888335313035236000, [0x62347267]);
  (888786781070688500, [0x939695019694]);
  (889088896104106200, [0x6349]);
  (889240296587227700, [0x5c48]);
  (890153544943555000, [0x75ab99b39a70]);
  (890613315868418000, [0x8d0a8d5e]);
  (890767043800306400, [0x7b56]);
  (891229650639184700, [0x767b770179df7de37f18]);
  (891539248409697500, [0x8ab28bfe]);
  (891694407478839500, [0x9662]);
  (892005449720278800, [0x60d577a7]);
  (892161334397207800, [0x6388]);
  (892317462453903000, [0x53e06298758a]);
  (892473834651521300, [0x559d7940]);
  (892630451754795800, [0x6790]);
  (893101780200005600, [0x9189]);
  (893575340674589000, [0x4fbf]);
  (893892298150717000, [0x674296dc]);
  (894051154419230800, [0x8054806f]);
  (894369626025982700, [0x4ef0620f6232]);
  (894689115115634700, [0x62e2650f]);
  (895009628210529600, [0x6367]);
  (895331171895926800, [0x6cb38fdf90729a199a97]);
  (895977377698736000, [0x64166447]);
  (896139583735922900, [0x5e725e79]);
  (896464787274560500, [0x826f]);
  (897446791892658200, [0x54017c72]);
  (897776281482343400, [0x771f]);
  (897941434286190600, [0x638c6e9076df8000]);
  (898438535558392600, [0x7f5a7f7095f99b27]);
  (898604786635754100, [0x5df2]);
  (898771314567660300, [0x6162]);
  (899105204694211600, [0x75db8e0f]);
  (899776348153010400, [0x70c2721b]);
  (899944840189502300, [0x52b252c1]);
  (900113616600874200, [0x6dfb8d088d60]);
  (900282678348665000, [0x5192584c600061f7]);
  (900621661724116200, [0x615564e6]);
  (901303095366089100, [0x607660e1]);
  (901474181806452200, [0x7387]);
  (901645561454225600, [0x5bab5bae]);
  (902161469735228400, [0x813881c9]);
  (902334032331975200, [0x62cd62ff]);
  (902506893222037100, [0x5ac1994b9988]);
  (902680053438464800, [0x4f344f8d]);
  (902853514019685700, [0x5f8a]);
  (903027276009539800, [0x7b147b46]);
  (903550380951295000, [0x62e864a56b4c]);
  (903900644006415300, [0x811a8173]);
  (904781706974630700, [0x8cbc8d34]);
  (904958854939469000, [0x4ec7]);
  (905314095099905600, [0x7df47ec396359663]);
  (905849332773764900, [0x8cc38d41]);
  (906028383851143600, [0x53c996f7]);
  (906387450664216500, [0x6a2a6a6b]);
  (906928479937041300, [0x513f5152]);
  (907109475461565200, [0x8349]);
  (907290799173983400, [0x6ce38cec8d26]);
  (908019399847076700, [0x663e986f]);
  (908202382514784300, [0x88c1]);
  (908385700622950400, [0x92749451]);
  (908569355403680500, [0x51bb51cd8ad28c05]);
  (908937679945310300, [0x7e797ece8aa68bf5]);
  (909122352204626700, [0x50a85132]);
  (909492722998375100, [0x730e737582bd]);
  (910612137672690400, [0x7a337a698b66]);
  (910799931155110400, [0x65706578926494a9]);
  (910988077965080800, [0x8fb1]);
  (911365436903445000, [0x62b1]);
  (911744225235138700, [0x7533]);
  (911934158815503800, [0x6108672c]);
  (912124453830112400, [0x7b797c4c]);
  (912315111657170500, [0x5f027570]);
  (912889275913938100, [0x4f53917f91c096e89ad4]);
  (913081398931727500, [0x5f08]);
  (913466755863326400, [0x9806987a]);
  (913853603541118500, [0x80a5]);
  (914047590022901200, [0x7e737f34]);
  (914436695572197800, [0x77ff7926]);
  (914631817585324000, [0x7f577f85]);
  (914827321068904300, [0x5bbf]);
  (915023207517437600, [0x632464e06c886c89]);
  (915613179730156500, [0x66556688]);
  (915810613160528300, [0x8fa8]);
  (916008437161738900, [0x5bc6]);
  (916206653282138000, [0x980c9882]);
  (916405263079300900, [0x8a0a8baf]);
  (916604268120101800, [0x732e737b]);
  (916803669980788300, [0x7aed]);
  (917203670514123000, [0x898f89c4]);
  (917404272386809400, [0x7d427ec89999]);
  (917605277479612000, [0x6291]);
  (917806687416782000, [0x4e50609f6a02]);
  (918210728370482500, [0x96ea]);
  (918616408440044000, [0x5bfb5c0b]);
  (918819867309822800, [0x4fd8]);
  (919023740978807500, [0x626b6383]);
  (919228031141787700, [0x80cc]);
  (919432739503960000, [0x706f71c8]);
  (919637867781015700, [0x7b3c7c608cc08d3a]);
  (920255789417611700, [0x52df99d59a7e]);
  (920669868684214700, [0x652f]);
  (921294220348183200, [0x649e]);
  (921503206840129300, [0x622a]);
  (921712631000440700, [0x6df195ca9614]);
  (922132799685810800, [0x655b6582]);
  (922343547919767200, [0x8ddd]);
  (922554741240081500, [0x6643]);
  (922766381530719200, [0x57f76267]);
  (923404003244646900, [0x501f]);
  (923617450497510200, [0x6c617da07eff]);
  (923831354322385100, [0x4f17773e]);
  (924045716676710200, [0x7684]);
  (924260539530539100, [0x8df3]);
  (924691574680651500, [0x6eaf]);
  (924907790981100900, [0x6cfb7009]);
  (925124475789610000, [0x8cea8d28]);
  (925777361677856300, [0x7f69]);
  (925995940999854400, [0x53db9ed8]);
  (926434538194179800, [0x8a93]);
  (926875067540971500, [0x8863]);
  (927096062106051700, [0x527f]);
  (927317546139007000, [0x53f78352865f]);
  (927761991315049400, [0x8a738be6]);
  (928208420627918000, [0x62e564c17cd68170]);
  (928432384887268500, [0x8d74]);
  (928656851872650800, [0x5bcc]);
  (928881823846052300, [0x5c3f67816975]);
  (929333291881505000, [0x5893]);
  (929786807398044000, [0x97f3]);
  (930014338781757700, [0x5ea7]);
  (930242389051630200, [0x8fa98faf]);
  (930470960579715700, [0x62c96f2b]);
  (930700055754371300, [0x626f]);
  (930929676980406400, [0x6f0f]);
  (931390507289025700, [0x7814]);
  (932085759220514000, [0x7b26]);
  (932318588196473100, [0x534f5354]);
  (932785878766412300, [0x7e82]);
  (933020345462337800, [0x75bc]);
  (933255363196833000, [0x7a0b92d2950b]);
  (933490934566079000, [0x699c]);
  (933727062184647000, [0x5986599d]);
  (933963748685673600, [0x632f6b477136]);
  (934200996721036600, [0x4f5b5fd88b008c0b]);
  (934438808961533400, [0x67976d4e6fdf70c1720d]);
  (934677188097061000, [0x65e7820a]);
  (934916136836799300, [0x56f072b672c0]);
  (935155657909394700, [0x754c]);
  (935395754063148600, [0x51ac547357a658be]);
  (935877682706743400, [0x532f6c47]);
  (936119520793171500, [0x7b7e7c3d8ce08d54959395f4]);
  (936604958639651400, [0x795d884d]);
  (936848564119439500, [0x7259878d]);
  (937092764484994600, [0x644664fa]);
  (937828964129101500, [0x6cca]);
  (938570623894606500, [0x605060b695f7]);
  (938819071227372800, [0x7f8e7fd4]);
  (939317825378476600, [0x51ff635e6488947f]);
  (939568138400288400, [0x4f9d520a6c57]);
  (939819079560831000, [0x6d8c6e67]);
  (940070652020555800, [0x538c53ad]);
  (940575703599162700, [0x83cc8cc48d3f]);
  (941083318902348700, [0x63d0]);
  (942106345727430200, [0x52b352de]);
  (942363746126947500, [0x6545]);
  (943139946660496300, [0x58839f13]);
  (943660781171210200, [0x523b60278857903c]);
  (943922219228617400, [0x5d07]);
  (944184342576604700, [0x5207534a]);
  (944710659581032200, [0x8f038f83]);
  (946038700347821600, [0x53825ee06168]);
  (946306438124893200, [0x640164f1]);
  (946574894661960200, [0x5782]);
  (946844073828531300, [0x52be6562]);
  (947113979525447800, [0x5a2080bf816b]);
  (947384615685222000, [0x5cb862d263fd652c7a3f]);
  (947655986272381800, [0x592260e761fc68a673a9]);
  (947928095283817700, [0x62766b32]);
  (948474544731025700, [0x4f51535a]);
  (949023996662789700, [0x6ee56feb]);
  (949576484255986700, [0x56175c1d8001]);
  (950132041240447000, [0x62b5797779b1]);
  (950410981449204900, [0x7fa4]);
  (950690701911311000, [0x63a067aa69cd865a865b]);
  (950971207004071900, [0x5e9f5ee27cbe]);
  (951252501141733300, [0x533b91ab]);
  (952101162529465100, [0x514c5151]);
  (952385657742688200, [0x6d74]);
  (952957087869032000, [0x591c7e8f7f20903b908f9175]);
  (953244032111827400, [0x4f0d6728]);
  (953820402583502300, [0x5cd9]);
  (954109838386138900, [0x4f5551c06de8]);
  (954400114351934900, [0x517164ad68656a4b]);
  (954691235372680900, [0x9910]);
  (954983206383014300, [0x99c19a73]);
  (955276032360923100, [0x7792779e]);
  (955569718328254100, [0x70e67169]);
  (955864269351229700, [0x5e78]);
  (956159690540973000, [0x53776fa1738b]);
  (956753164092954300, [0x54395a01]);
  (957051226906768100, [0x4ecb]);
  (957350180791604700, [0x7f627f77]);
  (957650031091230500, [0x7cae7ce7]);
  (957950783197626000, [0x4f6350ad901d]);
  (958555014643222200, [0x6e7f6fd5]);
  (958858505012737600, [0x798f79d8]);
  (959162919250860400, [0x540a56b7]);
  (959468262999549500, [0x57fa6750]);
  (959774541952604000, [0x55e65d4c]);
  (960081761856301000, [0x5f2f5f4e62e66514]);
  (960389928510041800, [0x4e4b7e1b7f1a904d]);
  (961009125534834000, [0x63cf8010]);
  (961320167776273100, [0x6ce1]);
  (961632180509897500, [0x535555ae719f]);
  (962574102701546700, [0x586b]);
  (963524981498449400, [0x7d177eb1]);
  (963843961035259500, [0x8de18ecb8f678ff9]);
  (964163961308326600, [0x5bc2]);
  (964484988871351400, [0x6ce2]);
  (964807050341355700, [0x8015]);
  (965130152399500200, [0x67087cca]);
  (965454301791917400, [0x65b96f6e76ae7dda7ebf8cc28d42]);
  (966105769894036600, [0x5143754f]);
  (966433102428533700, [0x5fcc654f]);
  (966761509948652700, [0x6821]);
  (967421578351787800, [0x65836bd9]);
  (967753253614387200, [0x8a698bd7]);
  (968086032623654600, [0x5e38]);
  (968419922750206100, [0x6691]);
  (968754931438734300, [0x549264bc70897210]);
  (969091066209005000, [0x68376a23]);
  (969428334656868700, [0x5b546deb6ee46ffe]);
  (969766744455292900, [0x515a7126906d9ee8]);
  (970106303355406600, [0x9633967d]);
  (970447019187568000, [0x5fe06dc0914c]);
  (971131953372125500, [0x563156d15bb08aa18beb]);
  (971821611278031700, [0x7247]);
  (972516058513312700, [0x54135687]);
  (973215362062409800, [0x62636d2a]);
  (973919590324951100, [0x61278b0a8c0e]);
  (974273572995463500, [0x5835]);
  (974985319772349800, [0x6664]);
  (976424193517559800, [0x75308af18bb3]);
  (976787170322617700, [0x4f8b677f]);
  (977151469450467800, [0x4f50622e853d]);
  (977884073459675000, [0x5bb4]);
  (978252398001304800, [0x6b4976fc]);
  (978622084189437300, [0x683983dc]);
  (978993142129090900, [0x63d2716495a396019759975c]);
  (979739414249249800, [0x4f6957618986]);
  (980114649211105000, [0x529d52f8533f53787206]);
  (980491297490652500, [0x6b66]);
  (980869369774643100, [0x9006]);
  (981248876871498300, [0x610172628e87]);
  (981629829713165000, [0x9080]);
  (982012239357005400, [0x632063aa6493805e95fb993e998f]);
  (982396116987722000, [0x7a837aca]);
  (982781473919321000, [0x520058e45f8b5fd76ea29b3c]);
  (983946535641318600, [0x56bc8af78bbd]);
  (985521371338132500, [0x8511]);
  (985918986176096400, [0x59926212]);
  (986318188303050100, [0x7d817ed1]);
  (986718990442804000, [0x5c4b5f7065e5679c98f2996e]);
  (987121405472776600, [0x67896d6a]);
  (987525446426477000, [0x5ffd8712]);
  (987931126496038600, [0x4e1d7d72]);
  (988338459034802000, [0x60e08a138bad]);
  (988747457559954600, [0x541755ce]);
  (989158135755220000, [0x5c0a75ea761391ce9738]);
  (989570507473606200, [0x6025]);
  (989984586740209200, [0x53e4]);
  (990400387755075700, [0x6d78756a86cb986b98a4]);
  (990817924896123800, [0x51ed53675c975d17619181e5]);
  (991658265975761700, [0x4e5851b0]);
  (992081099586713800, [0x5e8f6b206b8b6b9870ae]);
  (992932168553504700, [0x5ead63168cdc8d50]);
  (993360434732704800, [0x678469cb8ecc8f68]);
  (993790542922643800, [0x53666e3477b0]);
  (994222509037095400, [0x70759748]);
  (994656349196955200, [0x5578562f671d827a85dd]);
  (995529717193830700, [0x56e257185bd25c1a63a9725b]);
  (995969278341134500, [0x535c53e892fc94a2]);
  (996410780162046300, [0x6410]);
  (996854239868832800, [0x7db47f00820d]);
  (997747102943263000, [0x544661c2]);
  (998196541902046900, [0x566c6eda6efe7f55]);
  (999101525454038600, [0x57ae]);
  (999557107107624700, [0x8e1e943594c1]);
  (1000014773810365800, [0x53a554dd5665]);
  (1000474544735228800, [0x6de177798a988bf18ca28d21]);
  (1000936439320858400, [0x62b9]);
  (1001400477276508600, [0x665266ec]);
  (1001866678587089700, [0x722c]);
  (1002805652622073600, [0x552c]);
  (1004230854892793600, [0x4e2755aa]);
  (1004710472119143000, [0x4e9160eb618a65e896f2]);
  (1005676663210316800, [0x4e9255b75674]);
  (1006163282175434000, [0x98029876]);
  (1006652280704853200, [0x866b87f2]);
  (1007143682185096100, [0x7dd27eea]);
  (1007637510349154300, [0x537357cb63b764f2]);
  (1008133789283367300, [0x51c96dbc]);
  (1008632543434471200, [0x52d8]);
  (1009133797616825500, [0x65e9916c]);
  (1009637577019821300, [0x52565a297518]);
  (1010143907215476000, [0x58065c3e8650]);
  (1010652814166223100, [0x541e597859e6817f]);
  (1011164324232900200, [0x580262937d717edf]);
  (1011678464182942000, [0x603b7e3d]);
  (1012195261198786300, [0x628475f0]);
  (1012714742886496600, [0x64a48cfd8d5b958395ea]);
  (1013236937284611700, [0x62cc8150]);
  (1013761872873226200, [0x6d5a8fdd9055]);
  (1014289578583310600, [0x60557a9c7ac49edc]);
  (1014820083806279900, [0x82d78fdc9060]);
  (1015889612717954700, [0x519c60b863a8899389c58af88bf88fb2]);
  (1016428697581442400, [0x51a4676f6b7c6bb26d3d]);
  (1016970704328376300, [0x60e961f2]);
  (1017515664805132800, [0x6db8]);
  (1018063611381595200, [0x803880738fb9908a]);
  (1018614576962692200, [0x5c40]);
  (1019168595000253900, [0x976999ad9a6d]);
  (1019725699505199200, [0x59d3]);
  (1020285925060066200, [0x5c51604660528a898b7d]);
  (1020849306831892000, [0x4f4362f3]);
  (1021415880585459700, [0x5e866176]);
  (1021985682696923400, [0x959295f2]);
  (1023135120639496900, [0x776c80ce]);
  (1023714832407929400, [0x574061ac75af760b7d447ec4800d8a5e8bcd]);
  (1024884436384248700, [0x53f854ee723598059879]);
  (1025474408596967500, [0x62fc64b0]);
  (1026067882148948800, [0x4ec18499]);
  (1026664898847599300, [0x543b60af61ab]);
  (1027265501253620500, [0x5fb78f148f85]);
  (1027869732699216800, [0x5fd665729808987b]);
  (1028477637306855000, [0x62c666f38f388f9396489673]);
  (1029089260008598600, [0x53715fae6684]);
  (1029704646566036400, [0x607c60f1959895f8]);
  (1030323843590828600, [0x58a86dcc75d27662]);
  (1030946898565892000, [0x54356d12705175f975fa77098de8]);
  (1031573859867251600, [0x566a615161fe8ced8d4c93ae95479aa8]);
  (1032204776786578100, [0x506568cb8ddf]);
  (1032839699554444000, [0x5706571362a2643664587b4b8877]);
  (1033478679364321100, [0x62ab]);
  (1034121768397350200, [0x71ac]);
  (1034769019847912000, [0x549575ff]);
  (1035420487950031200, [0x4f5a54d75629]);
  (1036076228004647000, [0x5c41]);
  (1038069649494728900, [0x543e6670]);
  (1038743052712863200, [0x4e9560a0]);
  (1039421021411401100, [0x7de07f14984c9898]);
  (1040103617918441000, [0x51405df45f6962ed68116a396da46ecc7c387e0a7f22]);
  (1040790905847217300, [0x63ed]);
  (1041482950131674700, [0x628a669775c7]);
  (1042179817063284000, [0x533a534054fc561856536dc66e856ffa901b9057907a]);
  (1042881574329148700, [0x660f704c8ffd]);
  (1043588291051458000, [0x58ee58ef5c425c64631f633e64d26c278aa08bda]);
  (1044300037828344300, [0x4e395361592b607f884591c1]);
  (1045016886776205600, [0x80be814e81548d138d439038]);
  (1045738911573554300, [0x6377]);
  (1046466187506462300, [0x4fae7f8a8dc48e4c944494f89ec39ec49f3b]);
  (1047198791515669600, [0x5d2960f96b21804a8b178c24]);
  (1047936802245431800, [0x54c15b5d624d6625732a8c6c8dea9f4a9f50]);
  (1048680300094183700, [0x521952476251638764b28e4b]);
  (1049429367267099300, [0x4e735251528d]);
  (1050184087830637700, [0x7c89]);
  (1051710835043716600, [0x68177ddd7f0999529976]);
  (1052483039653107600, [0x4e984e99640f66f0819d966a]);
  (1053261253697313100, [0x596089b289d0]);
  (1054045571443415600, [0x59375c385c4d711a8b208c23970d]);
  (1054836089394127000, [0x74347978798d8aa88bf2]);
  (1055632906359044700, [0x519555bb8870]);
  (1056436123528771100, [0x572369a8805680c38a0c8aed8b018ba78c128c15]);
  (1057245844552033100, [0x68ad8de4]);
  (1058062175615949100, [0x51b760438d66]);
  (1058885225529600800, [0x90aa]);
  (1059715105811070200, [0x514181e3]);
  (1060551930778121800, [0x507653105e976f13707d707e8d859b42]);
  (1061395817642708300, [0x901e]);
  (1062246886609499300, [0x5f996cb87ae0]);
  (1063105260978638400, [0x4fd758fd5bff6b936bae764c]);
  (1063971067252949800, [0x59765de168636a94]);
  (1064844435249825200, [0x5e2e5e6b70e47e3b98ed996c]);
  (1065725498218040800, [0x5f2663d676d088f99e7d]);
  (1066614392959765400, [0x50f15ba05bf5644a652465a965ac7b807c2196c7]);
  (1067511259958041400, [0x55065f0a666f731c809880c681bd8aeb8c0f]);
  (1068416243510033100, [0x59fb7a8d7ac57e557f2e89b789d18d0f8d628e8f8eaa983b9891]);
  (1069329491866360400, [0x522e54e85de25e055e25]);
  (1070251157376852900, [0x60ac61f879c19676]);
  (1071181396643084200, [0x514751f658c15b7d5e3d5e935eab6f3e796d96f6]);
  (1072120370678068100, [0x54c4780c7d147eaf80a4819a8da39a459a71]);
  (1073068245073522500, [0x52d2]);
  (1074025190175137500, [0x526a5632620864926f5b6f5c8df88e558eac]);
  (1074991381266311300, [0x53d9655890429f529f7f]);
  (1075966998760847700, [0x5026526f58246db576d776dc90e8]);
  (1076952228405148800, [0x64796d456dfa786b820c]);
  (1077947261490465700, [0x548e6405652a6bb57bad8089]);
  (1078952295075815800, [0x52e453cb716e8a508bc8]);
  (1079967532222217700, [0x525453795957606477f39761]);
  (1080993182238936600, [0x56a356c25a9a969096b1]);
  (1082029460942491100, [0x4f1e5098525d52656df7780178bc97ad9ebb]);
  (1083076590929220700, [0x54ac568562d865126522773a7ad9840e]);
  (1084134801862274400, [0x4f83585181798e489a019a8b]);
  (1085204330773949300, [0x52425291532a541b58755c185e8778b082e58403]);
  (1086285422384370800, [0x5448886c896f]);
  (1087378329437589700, [0x69bb74227e2b7f1d81b38af38c198edf8f6f]);
  (1088483313056248400, [0x67f46bdb6f31708e810881099178978b]);
  (1089600643116060800, [0x4e306ce579807b2c80a080a9817885c98c50]);
  (1090730598641454200, [0x4e25520e56b45bc4642d7e7c7ee7]);
  (1091873468223816300, [0x56d45c168083808585aa]);
  (1093029550463924000, [0x51cc795680f88ce28d24]);
  (1094199154440243200, [0x6d016d466f3f6f549756]);
  (1095382600204943400, [0x5a366d9d6f87714e89a689ce934b9505]);
  (1096580219309615000, [0x549b568070ad8ca78d2b8f5f8f70]);
  (1097792355362849500, [0x60ef6163658b932e95229f4b]);
  (1099019364622030900, [0x5760589c5a075b0c680f6b0492b995089707]);
  (1100261616621886600, [0x4f2a4f73507d60bc68536e437f4498e29965]);
  (1101519494842572700, [0x516c60a362c267af7fa17fa8823584c4]);
  (1102793397420315600, [0x4e43543c5c4e6db275328d84]);
  (1104083737903906500, [0x7dad7ef4]);
  (1105390946060641600, [0x5e7b63636417684c7c7b8b5c8c31985e]);
  (1106715468735643700, [0x51d15a9265776e4a7fc5]);
  (1108057770768857800, [0x5fa8632a641396869752]);
  (1109418335974435600, [0x59bb6d25763e766e]);
  (1110797668187669300, [0x504e575162db67516e0e7006865e91dd948896c496de98ea996a9e21]);
  (1112196292385143300, [0x4e114ecd54c0793e811381bf9041919c]);
  (1113614755884338900, [0x65cf6b836c226c2b98c498d8]);
  (1115053629629548800, [0x60968033864f865c8a158baa8eba]);
  (1116513509571664100, [0x5341568f5c065c07608560a661a964217a9780c181058ac98bff8dda]);
  (1117995018150178200, [0x54b358995e015e63724688548d058d58929c]);
  (1119498805886632200, [0x4e324f18507b50c2512a59385f955fa06d95847a8a87934d9540]);
  (1121025553099711100, [0x53176761689d69b76cfd6fa47236786c]);
  (1122575971753307700, [0x542e642c6e2f]);
  (1124150807450121500, [0x5b9561156d8e72e0798579aa809a96fe9727]);
  (1125750841584765600, [0x68816c999a379a9a]);
  (1127376893671943700, [0x6f208892]);
  (1129029823867064800, [0x4ed561d261f66bb46bc66d1e77298f1d8f8996049b2e]);
  (1130710535698702800, [0x5bdd5be276db97099ef4]);
  (1132419979034632900, [0x51fd539a566858eb5b976ba16baf6ca66dea76f27a74801881ba9017]);
  (1134159153305819800, [0x5c465c4a9645969b9f0e9f619f84]);
  (1135929111015760000, [0x5180612362d77c4d8cfa8d5a]);
  (1137730961566027700, [0x51e1579258d85f13633276f98e6d92f8952f]);
  (1139565875432847400, [0x631e64bb6cfc6f51]);
  (1141435088734062700, [0x51a053f2620d69fd788c795f7ce0821f963496709943998d]);
  (1143339908231132000, [0x52ff5e105e33663566b17578]);
  (1145281716816842300, [0x5e065f926014667a76c878cb]);
  (1147261979546460300, [0x5b9d5bf663c466b46eba789c78e381ed8721881f]);
  (1149282250278212200, [0x5be170db71ed7a818b148c118cb68d2c8fed]);
  (1151344178998485600, [0x5c8160ee619a6b726d0b762b767188f19798]);
  (1153449519918269000, [0x52c952fb5300621190059913997f]);
  (1155600140440365400, [0x4f3a51b65757584a661f707670eb71d97a847d217db17eb27eba7f817f8880a28a1d8a618bb68be9]);
  (1157798031112242800, [0x643a651c]);
  (1160045316697448700, [0x521d55016e0d6e176ef26f2c80d6]);
  (1162344268519918500, [0x56da5de6634f65d765f16d4a6fc1718f772c77d379c07bee7c437e697ef380ba8584]);
  (1164697318260938000, [0x520d5baa61b26c646e6f82bb9328951a96cf96db]);
  (1167107073418844000, [0x4ed6559858f35b645bd3612461a46bbc6e89]);
  (1169576334677881100, [0x53cc565c5695575f58b368b06b3a6e4e783a792a7bb1809d96d99f20]);
  (1172108115476310200, [0x4e1c564e590f62e363c067716eb67f9e918b93e1955c]);
  (1174705664116636200, [0x54e6568e5a18603564de64fb6613676069d3723d755c819b81c2]);
  (1177372488824852300, [0x8b058bcc8e35]);
  (1180112386243663800, [0x4eb55178548f5df162f164c572c2780d7aef7c927d307ec6893b8a60904f91ae98fc9972]);
  (1182929473940333400, [0x50bb50f558575c6f63e3641e65006cf36d827a917aaf8ce48d319bae9c9c]);
  (1185828227627658600, [0x4e56557b56ed57125a1b5a315a3c5f0b5f2d626d64cd7a777aae82b38ae78c10]);
  (1188813523942626700, [0x4e5e517c575d58e9683d6c9f6e9d76d176e37b1e7d2099289986]);
  (1191890689809302200, [0x4e1477387768]);
  (1195065559640760200, [0x501a5ca95e1c5e5f6e9c79d1836b852d8adb8c00]);
  (1198344541923059300, [0x79e77aa57aba995e998b]);
  (1201734697090627400, [0x4eea5100536f53a85bbe5e845eda832c838a8cd3]);
  (1205243829071754500, [0x53e5541d5ba46674766b76727a988b0e8c1c8c3791e3947c94939523983898889b549ea59ea6]);
  (1208880593488842000, [0x502d508d57086308637a64e2686869f36ee9705878c57c73836484778a1f8bbc]);
  (1212654626287126500, [0x4e014ed9545b558f55c65ba55bd0686968976a0175c27bab7c2b849c]);
  (1216576697602454800, [0x4fa750745e1663236396639967956e56781678da8eaf8ec09002906999099977]);
  (1220658897054480200, [0x4e695412545554a4561459935b63602f62ac68da793479cb81028111815581668896]);
  (1224914858496359700, [0x55d45ac95c946beb76008086]);
  (1229360034753443300, [0x5220522a5527558255dd5f8963116dae70707a3b7ade7af683178f618f9492ea94fa9935]);
  (1234012036316932500, [0x50b25167518553435abe68fa715e7a579f8d9f99]);
  (1238891052733875700, [0x54d1555e5583651887028a708bd88e708e9590c19b319f3e]);
  (1244020382172630700, [0x53f357f95e1b5f845f9163cd782d8abc8c0a8caf8d2e8eb298399893]);
  (1249427104299658400, [0x555555e359a559be633a66a272ec736875457adf7e967ea47f3089d293e4954297c1]);
  (1255142945683653200, [0x4ef654fa56e0589259515a745b305cf0614c61be68a2708a733479017dbf7e937ef57f28806a8070835a83a286168617; 0x8dce92ae9418947e949f9b41]);
  (1261205407865296700, [0x537a575a58057b1b8346834a8478897f8a858bdb8c9d8ce68d1d8d4b]);
  (1267659259979053800, [0x504f6247679a679d6de474f675f4819c81fc8ab98acd8be48bfd8e858f4d8f999162980f984f9883989c992199859ae6]);
  (1274558547127749000, [0x4e45594761b76e146f0172ee73457a3d7cc57d007eaa8a168bab8ef88f338f748f8f9a0e9a919d289e2d]);
  (1281969344343121000, [0x4f26502b60656402645f67dc68c96ac36f0673ca76c678c1803b84828a9a8bee98fd9971]);
  (1289973615110474700, [0x5201528853e9542054d25589566056ca58f658fa59d45c4f61c864b764f7675668766c416fef7a9d7aa97fe0804b807e; 0x81fb8a238bc08fea9905997c9e7f]);
  (1298674752809437800, [0x51dd547155a75c245f3c65e66b276b506da96f80707c70967099711971c975867c7d7e3e7e467ee97f2a8302887d]);
  (1308205770789870200, [0x4f275096517d54c85a7f5de75e1862d662d9642a6c9b6daf73787bc77c3e818a86c08cca8d3c9776]);
  (1318741822355652900, [0x51ef51f153bf53f154095b17621a62d0636966666c5b758f7a007c077d097e237eab7f3880528df98e9a8f468f9890ae; 0x90f5]);
  (1330520125921291300, [0x52c7535255d1574d598d5e905eec606d620e6280664c68d269cc6d516e3e70ca7275727d74a775d877b37840790e7965; 0x7ae37d687ed27f94871c88ab8ae28be88d9f8df78e7a8f2f8f458f918f95947295769d099e26]);
  (1343873265183743500, [0x4eca542d54b8556d556e56c056d357a25cad5dba5ec96350636164bf64c265c5673d681368856cdb70b3727e72d77736; 0x7aff7b0882a18a5b8bc58e9e90a6928094f69c3b9cd7]);
  (1359288333166469300, [0x4ea24fcf515452fa54cf57ab588a60cb6c90719476017725772679e47d467eca7fe9823182598404863889de89f48aa3; 0x8bec8f128f1f8f848f8d91ba95d695ef]);
  (1377520488845864800, [0x4e3d52a152d95c145c3a5e9a6233631b63466523684268f1695e6c326c33711671dc723e783e792b79d27b5b7be97e61; 0x7ee38273827782d282de8446875789eb95c895f198719885991299819e97]);
  (1399834843977285800, [0x4efd4fa650755239524e52a35520562e576f599e5eb85fcf603c60b260df61df61fa64266746687f710a75a476b176ba; 0x78b47fbd803181988513852b86c78aa58bf08c468c6b914a935b947d94bb953b96b696b89704982498909ce59e1f]);
  (1428603051222463800, [0x52cb52f354685a465b815be75bf86808688f689368e76a216c606f3672b973367762778e795a7ca57d6e7f507ffc814a; 0x81d887f989198e6c901490319326942e9526957095cc961196759e1e9e3e9f729f8b]);
  (1469149562033280400, [0x4f6f55df58d159485e7c5e7d5fe463b067486df9718a728177d77b047caa7cde7d067ea17ff3888289128dba923494c3; 0x98da9b479b58]);
  (1538464280089274700, [0x515c51a552035395575b579b58c75ec162f663a367a569ab6aea6bfd6c496f226f62709570c87178718472d0745e748b; 0x74e675e7762a765f774777dc7802789178977aac81ca829283c784b88574860a874e880d8c828dcb8e47905b92e49320; 0x9504952d985b987098a098a69a629a749ad39b6f9c81])
].
(** prob_emit.go:55036-55057 probEmit, state 253 *)
Definition emit_253 : list (Z * list Z) := [
  (13751045546615960, [0x7e8c7eed]);
  (258929226895135700, [0x6b65]);
  (367219426471314850, [0x52bf52e2]);
  (472510439990040250, [0x590d]);
  (491778874372990400, [0x76ee]);
  (566222921867740000, [0x8fa98faf]);
  (589861799674163000, [0x8f9e8fad]);
  (640944362050762100, [0x540d]);
  (666075804878852650, [0x7136]);
  (681490872861578540, [0x984d989d]);
  (722037383672394900, [0x959295f2]);
  (791352101728389500, [0x73ed]);
  (860666819784384000, [0x4e3b52a0]);
  (929981537840378500, [0x91cf])
].
(** prob_emit.go:55058-55058 probEmit, state 254 *)
Definition emit_254 : list (Z * list Z) := [].
(** prob_emit.go:55059-55061 probEmit, state 255 *)
Definition emit_255 : list (Z * list Z) := [
  (0, [0x4e8e65bc])
].
(** prob_emit.go:55062-56620 probEmit, state 256 *)
Definition emit_256 : list (Z * list Z) := [
  (279409582148798830, [0x5c55]);
  (295313596964779770, [0x8cc78d44]);
  (299216196882139100, [0x52a852d5]);
  (313881999814472900, [0x4f5c]);
  (348361122796291700, [0x54cd97ff]);
  (349398879168577640, [0x4ea77522]);
  (353234031747447070, [0x7a76]);
  (355075381448996730, [0x5316]);
  (377242352618587650, [0x7406]);
  (398059710927785000, [0x6d3b]);
  (417888850281570400, [0x6574]);
  (419104549970503550, [0x8a2d8bbe]);
  (420068490280403800, [0x671f]);
  (422619106764440100, [0x6790]);
  (427210799331192300, [0x53e3]);
  (427697460585428000, [0x517395dc]);
  (430292028999554600, [0x67e5]);
  (432735589493573250, [0x8cbb8d39]);
  (435966331771761500, [0x552e]);
  (441801360689707200, [0x80b2]);
  (451031897674825200, [0x7528]);
  (451163998090336500, [0x5408]);
  (454171995880998000, [0x5e9461c9]);
  (455428580841223600, [0x52a152d9]);
  (456794342811265500, [0x71df8425]);
  (458049123273327200, [0x9769]);
  (459284000043625500, [0x6613]);
  (464394466896264100, [0x8a088ba1]);
  (464507695819476750, [0x547d]);
  (466580902030284600, [0x4e89722d]);
  (481359691577273450, [0x9a579a8c]);
  (486291612331743300, [0x7d447ec4]);
  (487250965447228600, [0x5de5]);
  (491248918895956300, [0x4e00]);
  (492656809645816200, [0x7ba1]);
  (494169443528831400, [0x884c]);
  (495122317847675000, [0x901a]);
  (505831388060872500, [0x6d4b6e2c]);
  (508219331297781200, [0x8f388f93]);
  (517419577500808400, [0x7834]);
  (531729661864875800, [0x6cd5]);
  (534758300306827300, [0x51fb64ca]);
  (541024273115820200, [0x64ad]);
  (543406315927698800, [0x6709]);
  (545195572495354900, [0x914d]);
  (550139490081386300, [0x65979b25]);
  (552751859025555700, [0x5bfc5c0e]);
  (553914662825067600, [0x8cfd8d5b]);
  (556250126283342200, [0x50995907]);
  (558094375692913800, [0x4e1a696d]);
  (560300824711323900, [0x4f2050b3]);
  (560959154936243700, [0x5229]);
  (566213710494048700, [0x6e38904a]);
  (570953596453766000, [0x60e0]);
  (571870193155174100, [0x4ed8]);
  (572017631442111100, [0x8a668bd5]);
  (575737767352345500, [0x5224]);
  (576159789847112500, [0x4ef750f9]);
  (576390736831978800, [0x63a7]);
  (576854237082393600, [0x5916]);
  (580320515573415700, [0x7c7b985e]);
  (580360603767979500, [0x4fdd]);
  (582426709266203600, [0x52a9]);
  (583869735749106500, [0x583162a5]);
  (585671586299374300, [0x73af74b0]);
  (586350417926086400, [0x9020]);
  (587592669925942100, [0x653b]);
  (587722063948740000, [0x4fe1]);
  (588328126409909100, [0x4f866765]);
  (589069031956502100, [0x7f6e]);
  (589551383253472600, [0x7df47ec3]);
  (590257164745177300, [0x753596fb]);
  (590434391198299750, [0x91cf]);
  (592450136940797800, [0x7763]);
  (592949117336501500, [0x6b65]);
  (593131183841050500, [0x635f640d]);
  (594046522039699200, [0x7bc08282]);
  (594738566324156500, [0x7d1a7ea7]);
  (594831201810169700, [0x7d667ed9]);
  (595249126727726600, [0x7b97]);
  (595668805590387950, [0x6d41]);
  (596137190521630500, [0x8cfc8d2d]);
  (598560687606176300, [0x62186230]);
  (599430258302931750, [0x5236]);
  (602434670437769400, [0x6392]);
  (605842068471144600, [0x7f6a]);
  (608835203435360700, [0x80c18105]);
  (609102083764568650, [0x8a628be2]);
  (613416157038490100, [0x92b79500]);
  (614482085784556800, [0x8a718bdd]);
  (615104435742365100, [0x67d3]);
  (617808080431973600, [0x6b96]);
  (622891387011896800, [0x6f14]);
  (624125970594126760, [0x4f4d]);
  (626450926086149900, [0x675f]);
  (630075918457124400, [0x8a1f8bbc]);
  (632275274019245100, [0x507f511f]);
  (633495628147318000, [0x4f30]);
  (635007684446700500, [0x7b11]);
  (636121902102024700, [0x7a81]);
  (636613303582267600, [0x65e5]);
  (639179374529833750, [0x5148]);
  (639323883225501800, [0x5b9a]);
  (640707232551636900, [0x6e89]);
  (642781380982318600, [0x6cbb]);
  (642856259308542600, [0x7a7a]);
  (649515065379419900, [0x76ea8361]);
  (651373704742362000, [0x8a138bad]);
  (652770031330498400, [0x5c5e5c6c]);
  (654102274182186100, [0x6c34]);
  (654438126722899500, [0x5f80]);
  (656049013612797400, [0x7f5a7f70]);
  (660149020918133300, [0x578b]);
  (660774302097852000, [0x51b36c7a]);
  (664053284380151100, [0x60f3]);
  (664424342319804700, [0x673a6a5f]);
  (664796782228902900, [0x57f9]);
  (668502669480013800, [0x53d1767c]);
  (671749388493764000, [0x8b708bae]);
  (675208532970725800, [0x5e8a]);
  (676984036530984850, [0x6297]);
  (678898988664270900, [0x4e506a02]);
  (679870394036318300, [0x751f]);
  (684305710791298500, [0x8ff0]);
  (686136425535734150, [0x8ad68bba]);
  (688709666932381900, [0x8fd0904b]);
  (690021552175293350, [0x4fee]);
  (691961006905977350, [0x6838]);
  (692945024686128400, [0x898f89c48f498f6c]);
  (695321621845870900, [0x53e47e2e7f29]);
  (695702091550237340, [0x793a]);
  (696595524423613900, [0x5546]);
  (697367729033004900, [0x8054806f]);
  (698015819441413200, [0x70b99ede]);
  (699061580605809050, [0x503a50b5]);
  (699853141467075200, [0x7e8c7eed]);
  (705576774350548100, [0x5175]);
  (705998419388441500, [0x75ab]);
  (706989227210911150, [0x53d88b8a]);
  (707131575989396500, [0x7814]);
  (708855756632847100, [0x62a48b77]);
  (709583032565755100, [0x516c]);
  (711350383427504900, [0x56fd570b]);
  (713149532406809000, [0x8b498bc1]);
  (714367203464334550, [0x88ad8972]);
  (716847950834761300, [0x4eba]);
  (717005060057965400, [0x623f]);
  (718430262328685600, [0x969c]);
  (718589879281967800, [0x8239]);
  (721836917785046150, [0x80a1]);
  (722998756580432700, [0x93969501]);
  (723165840996914400, [0x89e3]);
  (723333205052717400, [0x62bc]);
  (724174252903577100, [0x5883]);
  (725022434409168000, [0x8001]);
  (726394668634678100, [0x6cf3]);
  (726914150322388500, [0x8fc19077]);
  (729552825839708000, [0x5bdf]);
  (730448086966919400, [0x5931]);
  (730989116239744200, [0x5b88]);
  (732998316248013000, [0x79fb]);
  (733739060375799200, [0x88c588dd]);
  (735994795118206650, [0x79bb96e2]);
  (736375747959873400, [0x9152]);
  (737142035234430400, [0x63f4]);
  (737334528075388800, [0x6bd2]);
  (737720628941134750, [0x4ea1]);
  (738692453888026900, [0x56de]);
  (739280114736925400, [0x67406bba]);
  (739673816032859300, [0x7f8e]);
  (740864306283491100, [0x52b152f5]);
  (742880503612525600, [0x63a2]);
  (743084377281510400, [0x5237]);
  (743288667444490400, [0x538b58d35956734e]);
  (745354856650886100, [0x6025]);
  (745773267303143500, [0x7bc48303]);
  (747678086800212950, [0x88c1]);
  (748536461169352100, [0x8eab]);
  (750275635440539000, [0x7559]);
  (752045593150479200, [0x590d90099078]);
  (752717488175353600, [0x4ea4]);
  (753167939387464100, [0x8ac78c08]);
  (753393928184207900, [0x51748208]);
  (753620428847293100, [0x6210]);
  (754074975084460500, [0x6f5b6f5c]);
  (754303025354333000, [0x50a85132]);
  (754531596882418700, [0x8a348bc9]);
  (754990313283109200, [0x4e0b]);
  (757080981765040600, [0x64e6]);
  (758261633023739550, [0x51fa]);
  (759938319009446200, [0x8aa48bef]);
  (761398198951561500, [0x65b0]);
  (762383428595862600, [0x4e607fd2]);
  (768507791119934500, [0x835085a6]);
  (769035496830018900, [0x53ef79ef7a4d]);
  (772535181033728500, [0x554f95ee]);
  (772809529628303600, [0x536b885b]);
  (773084632965492500, [0x96c6]);
  (775313137444436100, [0x7dda7ebf]);
  (775595225078600200, [0x4e6666f8]);
  (776161798832167900, [0x964d]);
  (776446294045391000, [0x89bd89c8]);
  (777017724171735000, [0x5ea6]);
  (777592438397291700, [0x7981]);
  (779336668663626000, [0x7d22]);
  (782313078854271400, [0x60d1]);
  (785692816812600500, [0x616e75658651]);
  (786005806113493200, [0x5ba15be95c71]);
  (786319778113960000, [0x670d]);
  (786634739004249600, [0x73ed]);
  (786950695033286400, [0x649e8ca88d27]);
  (787267652509414350, [0x5c04]);
  (787585617801152300, [0x8840]);
  (789840141633258000, [0x540c8b66]);
  (791813889917090000, [0x514951b2885d]);
  (792815567741437200, [0x5bb9]);
  (794166939658109500, [0x80fd]);
  (795192589674828400, [0x8feb]);
  (797627492575857000, [0x63a88f098f7d]);
  (797980226627653900, [0x6298]);
  (800123165773243800, [0x79c1]);
  (800847806625320600, [0x7d617edc]);
  (801212105753170600, [0x6212]);
  (801577736873481700, [0x707d707e]);
  (803800050551952700, [0x5b58]);
  (804930006077346000, [0x6d17]);
  (806072875659708300, [0x600061f7]);
  (806456753290424900, [0x521b52757de87f16]);
  (807228957899816000, [0x4e497fa9]);
  (807617307902455700, [0x52a0]);
  (808791489690123900, [0x6563]);
  (809185967519225500, [0x631b6523]);
  (811586082729180000, [0x6536]);
  (811991762798741400, [0x6d2a]);
  (813218772057922800, [0x4f5952309918]);
  (813631143776309000, [0x4f2450b7]);
  (816141735889416600, [0x50cf]);
  (817421071035407600, [0x5f79843d]);
  (819152716036553700, [0x804c8077]);
  (820029914643837400, [0x8d779632]);
  (820471416464749100, [0x5531]);
  (822708646240202400, [0x51658dc38e8d]);
  (824535181037931700, [0x7bad]);
  (825461113579211400, [0x5f15]);
  (825927314889792500, [0x503c]);
  (827339103044371000, [0x5b665b78]);
  (828291491195496500, [0x79cd7a2e]);
  (830223918478136900, [0x4e8b5207]);
  (830712917007556000, [0x86808755]);
  (832693179737174000, [0x65ad65b7]);
  (834204543518178800, [0x6cb9]);
  (834713450468926000, [0x5bc68b1d8c22]);
  (835739100485644700, [0x63a5]);
  (837297573587314600, [0x89c089c2]);
  (837822509175929000, [0x627064fe]);
  (838880720108982700, [0x519b5cb87d197eb88ecd]);
  (839414054706519000, [0x5378548c]);
  (840489333884145200, [0x60c5]);
  (842675213265395000, [0x50196c11]);
  (843229231302956500, [0x6e05798f7e6a7ed8]);
  (844909943134594800, [0x56fa5f71]);
  (845476516888162500, [0x77e5]);
  (848945072686951500, [0x7126]);
  (850128518451651700, [0x8cb88d37]);
  (850725535150302100, [0x636263db959295f2]);
  (851326137556323400, [0x4f2a507d523a]);
  (851930369001919600, [0x602770ed71b176d776dc]);
  (853149896311301400, [0x671b7e1b7f1a]);
  (855007534868594900, [0x6bd49a199a97]);
  (855634496169954400, [0x537563ed]);
  (856265413089281000, [0x6258]);
  (856900335857146800, [0x65cb]);
  (857539315667024000, [0x822a]);
  (858182404700052900, [0x51bb51cd]);
  (858829656150614800, [0x8a508bc898a898ce]);
  (859481124252734000, [0x534e5f0883ef]);
  (860796932710485200, [0x514c5151]);
  (862803689015566100, [0x6625]);
  (863481657714104000, [0x5c975d17]);
  (864164254221144000, [0x6ed18fdb9032]);
  (865543586434377600, [0x5192]);
  (869799547876257200, [0x5b55]);
  (871259427818372400, [0x4e714e82529e8fa6]);
  (873490003569802200, [0x75c5]);
  (874244724133340500, [0x6c42]);
  (875005184071862500, [0x6c146c2396e8]);
  (875771471346419400, [0x541056fe5716654c657591ce]);
  (877321890000016000, [0x5f205f35764c]);
  (878106207746118500, [0x520665997e7c7ee7]);
  (878896725696829900, [0x7b3c7c60]);
  (879693542661747500, [0x593473b073fe982d]);
  (880496759831474000, [0x72488003]);
  (881306480854736000, [0x8abf8c03]);
  (883775742113773000, [0x517b98109884990a]);
  (884612567080824700, [0x4f11]);
  (888031703555652600, [0x594f]);
  (888905071552528100, [0x5374537b]);
  (889786134520743500, [0x51cf6e1b]);
  (890675029262468200, [0x7267]);
  (891571896260744300, [0x7720]);
  (892476879812736000, [0x706b96ea]);
  (893390128169063200, [0x78e8]);
  (894311793679555600, [0x585e]);
  (895242032945787000, [0x65516c27]);
  (896181006980771000, [0x8b808bfb]);
  (897128881376225400, [0x6b8b6b987a057a0e983b9891]);
  (898085826477840300, [0x6b62]);
  (899052017569014000, [0x51b0529b]);
  (900027635063550600, [0x8ca78d2b]);
  (901012864707851700, [0x51b784998eca8f66]);
  (904028168524920500, [0x57cb5baa61b2]);
  (905053818541639300, [0x59275b57]);
  (906090097245194000, [0x4eb275db89aa8aaa8bf49676]);
  (909264967076652100, [0x53eb540d5e9f5ee2959895f8]);
  (910346058687073500, [0x52e4]);
  (911438965740292600, [0x54b376ca8fde9023]);
  (912543949358951000, [0x97f3]);
  (913661279418763600, [0x4e2755aa6743677e6b0a]);
  (914791234944157000, [0x65597d007eaa]);
  (915934104526519200, [0x541160688def]);
  (917090186766626800, [0x804b807e]);
  (918259790742946000, [0x8ecc8f68]);
  (919443236507646200, [0x53c97761]);
  (920640855612318000, [0x65576d7776d876e48d259012905e]);
  (921852991665552300, [0x5c816b727e2b7f1d]);
  (924322252924589400, [0x4f6350ad5a5a5f69]);
  (925580131145275500, [0x90ae90f5]);
  (926854033723018500, [0x8a898b7d]);
  (928144374206609300, [0x5225522b79687acb85cf89e689f8]);
  (929451582363344500, [0x77ff79267d047ea6]);
  (930776105038346600, [0x708e]);
  (932118407071560600, [0x89ba89c9]);
  (933478972277138500, [0x51dd901f]);
  (934858304490372100, [0x4f4f653f9cf49e23]);
  (936256928687846100, [0x96be96e3]);
  (937675392187041700, [0x629a64ab6d3e]);
  (939114265932251700, [0x5bb388c2]);
  (940574145874367000, [0x5bb6644a6524]);
  (942055654452881000, [0x541356875c015e8f8a0e8ba8]);
  (943559442189335000, [0x7d507d937ecf7ed382729707]);
  (945086189402414000, [0x549062e964c770df7159759776429189]);
  (946636608056010500, [0x65a584b8]);
  (948211443752824400, [0x52125283]);
  (949811477887468500, [0x5c488a558bc4901d99289986]);
  (951437529974646500, [0x571f575a5805611b6848723188688caf8d2e8f2f8f91966996aa]);
  (953090460169767600, [0x5251528d59cb80a5899689c68fed]);
  (954771172001405700, [0x542c56a356c2604b6200807d8cea8d28]);
  (956480615337335700, [0x65f1]);
  (958219789608522600, [0x71647c73]);
  (959989747318462800, [0x539f5ba05bf562df635064ec8fa8]);
  (961791597868730500, [0x5fae75917ae0958995ed]);
  (963626511735550100, [0x514d58576d828f9e8fad]);
  (965495725036765500, [0x52df53cd606f]);
  (967400544533834900, [0x54385f1b80ce]);
  (969342353119545100, [0x62c9]);
  (971322615849163100, [0x543557305f395f48]);
  (973342886580915000, [0x655b658291ca91cb]);
  (975404815301188500, [0x5bd26d747d0d7eb3886588dc8cac8d23]);
  (977510156220971800, [0x537153db544a706f71c87247]);
  (979660776743068000, [0x7b548a108ba6903b908f96f7]);
  (981858667414945600, [0x529f6b3e]);
  (984105953000151600, [0x558a615161fe6c5b8d70]);
  (986404904822621400, [0x4ef05c0a71ac8fea99109bae9c9c]);
  (988757954563640800, [0x6ede6eef7de37f18]);
  (991167709721546900, [0x8fa98faf]);
  (993636970980584000, [0x526a535682b18ce3]);
  (996168751779013000, [0x5a20610f6b226b616d6a771f7d2f80159192]);
  (998766300419339000, [0x65396c61707c91cd]);
  (1001433125127555200, [0x4fd85f036301636e64da68c48ce08d54]);
  (1004173022546366700, [0x5e265e366b63793c79ae80179001]);
  (1006990110243036300, [0x4f5453605524559a5a018aeb8c0f98029876]);
  (1009888863930361500, [0x4ee35fc3826f9644]);
  (1012874160245329600, [0x5c45]);
  (1015951326112005000, [0x5370666f820d]);
  (1019126195943463000, [0x57a6589358be653e68376a23730e737575f975fa8d138d4395b195f996059b27]);
  (1022405178225762200, [0x68c06aa276877f759a82]);
  (1025795333393330300, [0x5f55624d6b7b8b2b8c2a8cdc8d508df391759304]);
  (1029304465374457300, [0x5012519c88638a2a8bbf8d088d608fb2]);
  (1032941229791544700, [0x6e21710a7c3890229762]);
  (1036715262589829400, [0x4e88559c5f0a67b670bc71497cbe8af78bbd]);
  (1040637333905157600, [0x59045f856dc074038655]);
  (1044719533357183000, [0x5047532f635e6488652f65e769a86c476d466f3f820a]);
  (1048975494799062600, [0x4f175ffd61626ea2773e817e8af18bb392d2950b9a30]);
  (1053420671056146100, [0x4e3256f058755c18626c63da6416644788778a0a8baf8cec8d269677]);
  (1058072672619635300, [0x4e705f6260af61ab65d772f1734475e780588cb78fb19752]);
  (1062951689036578500, [0x5dee612461a46469654f6db5767d7ffb8b008c0b8cde8d4f8ddd932f9519]);
  (1068081018475333500, [0x537954ed606460bc62ff6302639b669676f879df900f]);
  (1073487740602361200, [0x4ec753d6545854e15f045f815f8b5fb56f0f754f884588618b6f8bd1900091c1986b98a499c19a73]);
  (1079203581986356000, [0x4f9d5211525d526552fb5300590f5ba25bf95c0d5e955efa638876d176e37bee7c437d177eb18e8f8eaa9063]);
  (1085266044167999600, [0x57ce5ff5622e6ec5706d751876df79bd7a0b928094f6]);
  (1091719896281756700, [0x4e2d52ab593a596a5bbe601d67f179f07a317b49805a80f681a08cd38fbe905498db98de]);
  (1098619183430451900, [0x51cc5b545fcc603b60947e3d7fd4836f85e58cbc8d348db39006963b97329738]);
  (1106029980645824000, [0x4f10523b547c5bc45f2f5f4e6155623662376251627f64b265f6664266ff77f3815082bd82e68ad28c058caa8d2a]);
  (1114034251413177600, [0x515a518053476001607660e1614b623462536d897701853d8a0c8ba78ca08d1f901096f699b39a709ee8]);
  (1122735389112140700, [0x4f0f519953e85835585158f05beb613f6170624b6784682169cb80728b1b8b588bb28bc68dd18fce92fc943594a294c1; 0x98589867987e98df]);
  (1132266407092573000, [0x524a536653ec584c5d0763a06ce86da46deb6ecc70b87206834985c98a318bb899ac9a6c]);
  (1142802458658355700, [0x51675185535a55bb566a609f6d6e6e90719f846c8ced8d4c8de48ecb8f678ff79645969b98fe99709ed8]);
  (1154580762223994100, [0x574067426bb56c996d9d6f877cca7db27f51821e833689b289d08aa18ab28beb8bfe90fd921492749451949e958095e8; 0x96dc]);
  (1167933901486446200, [0x4efb514b5272533b537753d753f956065632573a58345a3c5bbd5bbf5bec5e035f025fd861a9627962cc63a165486587; 0x672c6b276b506da66db26f6475707934793e7b567b7e7c3d7e737f347f8a813881c982d785118aa68bf58f9f91ab91c7; 0x95e2]);
  (1183348969469172100, [0x4f53527f53f7559f56ed5712592f5f976291631f633e635565bd660e6cc46d29704c70e4716771c37801788e78bc79e7; 0x7d147ddd7e547eaf7ec77f09865f8b5c8b938ba98c318e2a8fdf900390729322932e94b195229ad4]);
  (1201581125148567600, [0x4e164e1d4e264e4e4f1a5145536153e05c3e5e385e765e78629567036c886c896cfb6fc07009758a7a7f7d72878d8f44; 0x8f9690179806987a98ef996d]);
  (1223895480279988700, [0x4e614e7351b65305559d5e015e6362c262db6324639863a963d0645864cd64e065b967286817686368b36a946b4c6b7c; 0x6bb26d0b70c2721b72b672c0754c76d67766783a792a79567dad7ef47fa17fa880af80c0813984cb865089868a988abc; 0x8bf18c0a8fd18fdc906090bb9109913091d192b9934d9508954096de97009813987f98c498d89e21]);
  (1252663687525166700, [0x4e58505c524d532a56b757fa592959475960597d5986599d59d35e725e745e79622a62dc62e86446647864a564fa6691; 0x66f26751680f68116a396b046cb36cca6ce16ce372af753b756b776c7a837aca812b8131885488578a9a8b028bee8c13; 0x8cc28cc48d3f8d428e0f9080929c9633967d]);
  (1293210198335983000, [0x4e3a4e864ecb4f014f514fae501f514151d1521753cb547354c455015b895b9e5be65de15e085e2b607c60dc60f1611f; 0x624e626b62cd630763836396649064916620665366c967086807690d6a196b666e4a70ba725b762b767176c8788c796d; 0x7a3d7a3f7a917aaf7cae7ce77e317eb57f3a809880a08178866b87f28aa08bda8d668d85903c9178959395f496359662; 0x9663966497769a0e9a91]);
  (1362524916391977600, [0x4e3e4ece4f184f194f8b512a52b352dd52de533a533f53405367538655835618565357505761589e5925594b596e5976; 0x5ac95e025f525f9e601c6055612761906269628462e2636764f4650f683968b069fd6b776b786ba16baf6e176eaf6ef2; 0x70e771d272ee731c7345738776ae76ee76fc782d78b17ad97c4d7c897d427ec87fa480dc81e58209884d8a008a028a3a; 0x8b178ba28bca8c248ca98d298dda8e4b8fb99047908a961f968a9812988199d59a7e9ad89e7c])
].
(** prob_emit.go:56621-56623 probEmit, state 257 *)
Definition emit_257 : list (Z * list Z) := [
  (0, [0x8fc7904e])
].
(** prob_emit.go:56624-56624 probEmit, state 258 *)
Definition emit_258 : list (Z * list Z) := [].
(** prob_emit.go:56625-56625 probEmit, state 259 *)
Definition emit_259 : list (Z * list Z) := [].
(** prob_emit.go:56626-56635 probEmit, state 260 *)
Definition emit_260 : list (Z * list Z) := [
  (108461536846574180, [0x5df2]);
  (130984600904908100, [0x4e86]);
  (139504602572976200, [0x597d]);
  (215114732314170840, [0x7f627f77]);
  (426191133595058500, [0x77408457]);
  (468572558272694600, [0x5462]);
  (537887276328689200, [0x5440])
].
(** prob_emit.go:56636-56636 probEmit, state 261 *)
Definition emit_261 : list (Z * list Z) := [].
(** prob_emit.go:56637-57324 probEmit, state 262 *)
Definition emit_262 : list (Z * list Z) := [
  (244145749549016330, [0x7684]);
  (265376347700495430, [0x5730]);
  (342194252626861900, [0x4f73]);
  (347567328921831800, [0x597d]);
  (348267040231426650, [0x7136]);
  (355736368323506400, [0x65e7820a]);
  (368855589350641470, [0x767d]);
  (386414245314330170, [0x826f]);
  (392782444317925600, [0x5306]);
  (411069409535552600, [0x7d057ea2]);
  (416244917686742260, [0x9577957f]);
  (420732093104459800, [0x5c0f]);
  (420852939040616650, [0x9ed1]);
  (449984562797216600, [0x6bd4]);
  (463476494587153700, [0x832b]);
  (469585263785137600, [0x51e1]);
  (475463348801894300, [0x77ed]);
  (479728387536931200, [0x70ed71b1]);
  (479946490131567200, [0x60a0]);
  (483728920998301200, [0x8db3]);
  (484183467235468600, [0x901f]);
  (490774087093362300, [0x6de1]);
  (498616283270942600, [0x7d047ea6]);
  (501825114726092600, [0x5b9e5be6695a]);
  (503745612709697700, [0x9ec39ec4]);
  (504580109902915700, [0x5929]);
  (506554786196399100, [0x969096b1]);
  (507126216322743100, [0x6eda6efe]);
  (511220355360479100, [0x958395ea]);
  (517694109952160450, [0x8fb9908a]);
  (520274898347747700, [0x6c886c89]);
  (521922382068098100, [0x4e4e]);
  (523260194662715800, [0x51b760466052]);
  (523597463110579750, [0x7da07eff]);
  (524616147641279000, [0x7cca]);
  (525990739731742500, [0x5feb]);
  (527034227461000500, [0x7dbf7ef5]);
  (530593321971270700, [0x5df4]);
  (536565245441433000, [0x6643]);
  (537337450050824000, [0x4eae]);
  (540487316756761200, [0x5802]);
  (540888118896515000, [0x5728]);
  (543327264208930900, [0x51c06de8]);
  (544569516208786600, [0x563b]);
  (546674857128569900, [0x51c96dbc]);
  (548391637490806400, [0x751f]);
  (550138406794845500, [0x7965]);
  (552817138391210400, [0x6084]);
  (554183902264076900, [0x91cd]);
  (554643673188939800, [0x5fd976db]);
  (555569605730219500, [0x6dcb]);
  (560332410629144900, [0x9752]);
  (560821409158564150, [0x51b2885d]);
  (563302926070536500, [0x8fa3]);
  (569522546857527100, [0x6e9c]);
  (572232739835306250, [0x53d88b8a]);
  (573894827958910300, [0x76f4]);
  (577304249093207800, [0x9ebb]);
  (579053564837959600, [0x6d0b]);
  (582646765760565900, [0x4e3d9e97]);
  (585742988320962600, [0x5ce8]);
  (587008828008155000, [0x76ea8361]);
  (588290896851061100, [0x6c6a]);
  (589589616403742200, [0x54c4]);
  (590905424861493300, [0x673d]);
  (592912181166574300, [0x82b1]);
  (593590149865112200, [0x570657135e73]);
  (595652078585385700, [0x5f205f35]);
  (596348945516995100, [0x8fdc9060]);
  (597050702782859700, [0x5e7d]);
  (597757419505168900, [0x5f027570]);
  (598469166282055300, [0x8499]);
  (599186015229916600, [0x58575dcd6d82]);
  (599908040027265250, [0x5446]);
  (602105930699142800, [0x72e0745f817e9a30]);
  (604353216284348700, [0x656c]);
  (605113676222870600, [0x6377]);
  (605879963497427500, [0x6697]);
  (606652168106818600, [0x772f7787]);
  (607430382151024100, [0x90c19b31]);
  (608214699897126600, [0x7a7a7c0c]);
  (609005217847838000, [0x5149660e]);
  (610605251982482100, [0x541f]);
  (611414973005744000, [0x6f09]);
  (616416015063210100, [0x538b58d3]);
  (617274389432349300, [0x513f5152]);
  (618140195706660740, [0x6ed47a777aae]);
  (620783521413476300, [0x7aef7d1b7eb7]);
  (623498620320071400, [0x4f9d54a7]);
  (626289499131779100, [0x7626]);
  (627237373527233450, [0x718a]);
  (628194318628848500, [0x9f4a9f50]);
  (629160509720022200, [0x843d]);
  (630136127214558700, [0x547c]);
  (632116389944176600, [0x82e69aa8]);
  (633121423529526800, [0x70c2721b]);
  (634136660675928500, [0x5be570eb71d9]);
  (636198589396202150, [0x6d516e3e]);
  (637245719382931700, [0x88f8]);
  (638303930315985400, [0x8338]);
  (639373459227660100, [0x7d2f]);
  (640454550838081700, [0x70d896be96e3]);
  (641547457891300800, [0x653e]);
  (642652441509959300, [0x96f6]);
  (643769771569771800, [0x61c8633a649e]);
  (644899727095165100, [0x90269090959295f2]);
  (646042596677527400, [0x5f537576]);
  (647198678917634900, [0x6c146c237e377f15]);
  (648368282893954100, [0x53e0758a]);
  (649551728658654400, [0x4e915fae6d1e901a96f2]);
  (650749347763325900, [0x6717811a817384dd85cd]);
  (651961483816560400, [0x76c8]);
  (653188493075741850, [0x541e]);
  (655688623296283600, [0x66f2]);
  (656962525874026600, [0x51b065917538]);
  (658252866357617350, [0x8edf8f6f]);
  (659560074514352700, [0x6f06]);
  (660884597189354700, [0x51747cdf8208]);
  (662226899222568800, [0x79bf79c38fc89081]);
  (663587464428146700, [0x68ee8427856d]);
  (664966796641380200, [0x54c8]);
  (666365420838854200, [0x9759975c]);
  (667783884338049800, [0x8dc48e4c]);
  (669222758083259800, [0x4fbf5237557c6e056ecb7fe0888588ca]);
  (670682638025375100, [0x52c36761689d707c788c82cd84bc]);
  (672164146603889200, [0x74a8]);
  (673667934340343160, [0x5162]);
  (678319935903832500, [0x659365958d6b]);
  (679919970038476600, [0x5475674296dc]);
  (681546022125654600, [0x98029876]);
  (684879664152413800, [0x55b7567466766d016f547591]);
  (686589107488343850, [0x600f6b6370af]);
  (688328281759530700, [0x8fe4]);
  (690098239469470800, [0x535555ae6f7a99c19a73]);
  (691900090019738640, [0x6727707f71e680e7]);
  (693735003886558300, [0x5bb95f319059906595f99b27]);
  (695604217187773600, [0x80d6]);
  (697509036684843050, [0x53e8]);
  (701431108000171100, [0x537198c498d8]);
  (703451378731923100, [0x56de5a11659c731d77e9]);
  (705513307452196700, [0x5cfb602f6cb996c5]);
  (707618648371979900, [0x54fc6c796d36]);
  (709769268894076260, [0x4e585d585db871a098af98d2]);
  (711967159565953800, [0x52fe65b9]);
  (714214445151159600, [0x51db51dc677e6e7f6fd5719f827382779038]);
  (716513396973629500, [0x60da90a69edd]);
  (718866446714648900, [0x626d6602]);
  (721276201872555000, [0x4e0a5207878d9ad8]);
  (723745463131592100, [0x4f26502b516e6059625164b2]);
  (726277243930021100, [0x540962c9745596c4]);
  (728874792570347200, [0x60f66f20708e7d307ec684ec]);
  (731541617278563300, [0x7247]);
  (734281514697374800, [0x533a53405b9a670d706b8a258bb7]);
  (737098602394044400, [0x657476997d1c7ead9163]);
  (739997356081369600, [0x5ccb7d227d9c7efc]);
  (742982652396337700, [0x5bc25e38]);
  (746059818263013150, [0x516853bb59315b895ffd65b07a337a697c97]);
  (749234688094471100, [0x540162986ef47c72]);
  (752513670376770300, [0x5f646d938e6d]);
  (755903825544338400, [0x5a1c5c3d6f2b6f8476e17e107ec98c6b]);
  (759412957525465300, [0x6bb7707575bc812b81319748]);
  (763049721942552850, [0x4e60531d6f47701f758f771f7fd29645969b]);
  (766823754740837500, [0x56d46d9f6f2370c1720d7691769a82e5830f862291ba9f13]);
  (770745826056165700, [0x56ca591a6f8874697b5483b983bd98bc98d5]);
  (774828025508191200, [0x4e1d556660f462967d728b148c118fe2]);
  (779083986950070800, [0x547d60fa75be75f47d557edd891b8938]);
  (783529163207154200, [0x5a496ed1766b767277aa8d73]);
  (788181164770643400, [0x549a54bb5b5c612370c87629786c81f3]);
  (793060181187586600, [0x56b757ae723d]);
  (798189510626341700, [0x4e4c56696b7b6d2570cf]);
  (803596232753369200, [0x4f4e5495559c5c425c646025614c651871928367871c98179887]);
  (809312074137364000, [0x53e45f375f3a607961e8642d661f73b073fe7b037be48335852b9999]);
  (815374536319007600, [0x5a775ae9607360e8615861c779c0822c985b98a0]);
  (821828388432764700, [0x4ec458a959045b8f76c6788e79d8865587129ee2]);
  (828727675581459900, [0x53eb5e166eb681088109817b81a9]);
  (836138472796832100, [0x634f6d536fc37cbc7e437ef7]);
  (844142743564185800, [0x54e85ed360af61ab623e7de97f1383a08e3d]);
  (852843881263148700, [0x59276cfc6d456dfa6f517cfe7ea0811181669686]);
  (862374899243581300, [0x58f05e725e796b6a70b97d467eca80728d8a972d97449ede]);
  (872910950809363800, [0x584c59445c555f2f5f4e5fc3656367266d126de56e0c705171ce76ca76ef82708271970f9762]);
  (884689254375002100, [0x5955611b61c2662d68866ca5701d714e723175d27662]);
  (898042393637454400, [0x5ced5d2d5d845eb76cf1701a8e66]);
  (913457461620180300, [0x548c55d65618565357776000602a61f762e363c06edf6f7870697206847185258721881f8ff79062]);
  (931689617299575800, [0x4e505598561f56855f6960146a0279cb810681ed82b888159165]);
  (954003972430996700, [0x4f36535354085527673467af6a3877667c387f8e9053]);
  (982772179676174900, [0x51ac51cc535a57665e6266f3677f6c8c6e3a71667cd97d937df27ecf7f08803782728650]);
  (1023318690486991200, [0x4e1b520653e2565c5695574f58de5fd26092626c632863da65f766e0695e6d786ee16eff767b76877bc07d507ed381f4; 0x828291aa]);
  (1092633408542985800, [0x501250f551c4522e52fb5300534e539a547155e659a55e955f906311648569426a596d946da66dd26f64762a765f78a7; 0x7c077dbd7ef082cf830283ef86078a008cbc8d348d648e81900f9c579cde])
].
(** prob_emit.go:57325-57325 probEmit, state 263 *)
Definition emit_263 : list (Z * list Z) := [].
(** prob_emit.go:57326-57416 probEmit, state 300 *)
Definition emit_300 : list (Z * list Z) := [
  (200415678075109050, [0x610f]);
  (204981137010955460, [0x597d]);
  (215171765089929320, [0x5408]);
  (221702274930706000, [0x4e0d]);
  (251774102695616130, [0x8010]);
  (254859901531606650, [0x5f97]);
  (264419413599708750, [0x898f89c4]);
  (334048103656170100, [0x666f]);
  (348213155362472730, [0x7d937ecf]);
  (414670536174061700, [0x8d77]);
  (426625051239040000, [0x8981]);
  (428225085373684100, [0x5982]);
  (429851137460862100, [0x51fa]);
  (449736223335378600, [0x50cf]);
  (455923763707187400, [0x4eba]);
  (460272274901161300, [0x6d4e6fdf]);
  (464818512308836950, [0x4e3a70ba7f6a]);
  (485403717729251800, [0x5206]);
  (497539803429678600, [0x52b252c1]);
  (500818785711977600, [0x9053]);
  (511354837277760300, [0x6210]);
  (527389102285278300, [0x541b611b7231]);
  (551901348088576800, [0x5f5366fc75767a337a698482]);
  (563679651654215100, [0x6c926ca1]);
  (570133503767972200, [0x52a852d573a9]);
  (577032790916667350, [0x9762]);
  (584443588132039500, [0x60b695f7]);
  (592447858899393150, [0x60f3]);
  (610680014578788600, [0x5149706b7d057ea2813881c9]);
  (621216066144571200, [0x542b8fc7904e]);
  (632994369710209600, [0x773c8da3]);
  (646347508972661900, [0x771f8b5c8c31]);
  (661762576955387700, [0x4e0a540d5c165fc3]);
  (702309087766204150, [0x5feb723d7406]);
  (731077295011382200, [0x53e354687ba181ea9031959295f2]);
  (771623805822198700, [0x5934624b7b28958095e8982d]);
  (840938523878193100, [0x547359276073616861c7751f77a78aa08bda8fb9908a])
].
(** prob_emit.go:57417-57425 probEmit, state 301 *)
Definition emit_301 : list (Z * list Z) := [
  (74923664721098890, [0x5b9e5be6786e78ba]);
  (349650756146648020, [0x7d937ecf]);
  (371965111278069000, [0x898f89c4])
].
(** prob_emit.go:57426-57426 probEmit, state 302 *)
Definition emit_302 : list (Z * list Z) := [].
(** prob_emit.go:57427-57427 probEmit, state 303 *)
Definition emit_303 : list (Z * list Z) := [].
(** prob_emit.go:57428-57905 probEmit, state 304 *)
Definition emit_304 : list (Z * list Z) := [
  (189388489183898480, [0x898f89c4]);
  (294538627785738250, [0x5408]);
  (326353993395491050, [0x4e00]);
  (351132453153229200, [0x5e74]);
  (351556182600780700, [0x4e2d]);
  (353919343054108400, [0x529f]);
  (375152606575107850, [0x6b63]);
  (379268413824458600, [0x7dda7ebf]);
  (385628938819915850, [0x5c425c64]);
  (393384762254503300, [0x5bb6]);
  (396663744536802380, [0x5c0f]);
  (409447081687790900, [0x7cfb]);
  (411746033510260700, [0x52a852d5]);
  (412915637486579900, [0x5929]);
  (425877386816918500, [0x65f66642]);
  (427679237367186400, [0x9ad8]);
  (447746306913401400, [0x661f]);
  (449993592498607300, [0x5927884c]);
  (453462148297396350, [0x53e3]);
  (458282358479184100, [0x81ea]);
  (459524610479039800, [0x5e265e36]);
  (465314008320930000, [0x673a6a5f]);
  (465978462592796900, [0x7406]);
  (478761799743785400, [0x5236]);
  (480288546956864250, [0x7d307ec6]);
  (481838965610460800, [0x91cf]);
  (486639887529096900, [0x56fd570b5e38]);
  (487462937442748400, [0x6c146c23]);
  (489973529555856050, [0x5c01]);
  (491682972891786000, [0x8d8a]);
  (494303210131188500, [0x754c]);
  (495192104872913050, [0x751f]);
  (498828869290000600, [0x9577957f]);
  (502602902088285200, [0x516c]);
  (511654302842368400, [0x6e90]);
  (513782042687096900, [0x519c8fb2]);
  (515956041350737500, [0x91d1]);
  (517061024969396000, [0x5411]);
  (521607262377071700, [0x4ea77522]);
  (523960312118091100, [0x7279]);
  (528839328535034350, [0x4e0a]);
  (530097206755720300, [0x643a651c68b0]);
  (537996047887583400, [0x54285678]);
  (542192467797486600, [0x6709]);
  (543631341542696600, [0x8cec8d26]);
  (545091221484811900, [0x5b9a]);
  (551153683666455300, [0x51d1653f68af6e4a]);
  (557607535780212400, [0x71df7b498425]);
  (560997690947780600, [0x6280]);
  (564506822928907600, [0x4f53969c9ad4]);
  (566308673479175400, [0x5bf95c0d80fd]);
  (570012800647210300, [0x53e0758a]);
  (573859428729989900, [0x7ad97b517bc9]);
  (577859962191359900, [0x653e7d047ea6]);
  (579921890911633400, [0x5229928094f6]);
  (582027231831416600, [0x5e03]);
  (590921980433066300, [0x7d937ecf]);
  (593275030174085700, [0x5e0265b98cbf8d38]);
  (598154046591028900, [0x5b9877ed7bc0828299ac9a6c]);
  (603283376029783900, [0x5b507891]);
  (605950200738000100, [0x6c61]);
  (608690098156811500, [0x7b97]);
  (611507185853481200, [0x8f498f6c]);
  (614405939540806400, [0x65b0]);
  (617391235855774500, [0x5de5]);
  (623643271553907800, [0x5b665b78]);
  (626922253836207000, [0x590d7a0b]);
  (630312409003775100, [0x5c40]);
  (633821540984902100, [0x5f176838900a905c]);
  (637458305401989600, [0x538557305ea75ef35f0089e689f88dc38e8d958b]);
  (641232338200274300, [0x4e0b4e3b514b5546]);
  (645154409515602500, [0x4f2050b36d6a73b073fe90e8]);
  (649236608967627900, [0x4f4e897f]);
  (653492570409507500, [0x616265cb75357a748f098f7d96fb]);
  (657937746666590900, [0x5b576b669f619f84]);
  (662589748230080200, [0x517395dc9636968e]);
  (667468764647023400, [0x70b87d057ea2]);
  (672598094085778400, [0x53d156db5854767c9645969b]);
  (678004816212806000, [0x4e135b635c085fc365cf8ca08d1f]);
  (683720657596800850, [0x5bc65f205f356d41]);
  (689783119778444400, [0x519b521252835c3a6b478ecd]);
  (696236971892201500, [0x62df64ec660e672c6cbb70b970ed71b17e2e7f298089981098849ede]);
  (703136259040896700, [0x4ee44f8b516b58c1590463d075317a057a0e7b5286558fdc9060]);
  (710547056256268800, [0x5165517b6bbf7acb800c990a]);
  (718551327023622500, [0x4e1a4f606536666f6807696d6a196bef901a]);
  (727252464722585400, [0x4f0165ad65b773af74b0]);
  (736783482703018000, [0x53f057475c5e5c6c5ead73e078c183cc8a088ba1]);
  (747319534268800600, [0x500d5c045e97624b62b163a56545804c8077]);
  (759097837834438900, [0x533a534053bf59475b585b9d5bf65ff56d3276c879bb7cbe7e2388c588dd8d7096e2]);
  (772450977096891100, [0x4f4f56e25718592e5c495c5c5e085e2b6416644765e071217d717d817e547ec77ed17edf7f6e96629d289e2d]);
  (787866045079617000, [0x529b52a95bfc5c0e647868636a9479d17d617edc84dd85cd8b498bc191cd96c6]);
  (806098200759012500, [0x54c15c165f375f3a630163886746687f6b67753b756b7bc47f577f8583038a698bd78fd1]);
  (828412555890433400, [0x4e0d4ef74fe150f9515a538653ca55b75674593a596a5e7362c9655965636599667a677e6b776c347247752877f38a34; 0x8b588bc68bc99234939694c395019ee8]);
  (857180763135611600, [0x4eba548c56de588559d45de85df45e8f5f025faa627f65876bd26c886c896cd56e7e706373cd75708054806f80aa85cf; 0x8e0f8f2a8f6e93ae954796c098fd9971]);
  (897727273946428000, [0x50a85132514852175355539f540c543855ae56685bd35de264ad6625672f6cb96d536fc371c3723d7a337a697fa48015; 0x80d6827a85dd885390209215937594ae952e96359663]);
  (967041992002422500, [0x4e094ee34f5c4f865065516852a152d953d853f753f8542f545854e1555f574a589e5f695fd7610f62d3659765e56765; 0x679767b667d368376a236cf56d0b6d4e6e2f6fc06fdf76f47a767d1a7ea78584865f88d58a188ad68b8a8bb08bba8f15; 0x8f7b90539057907a90ca98a898ce9b25])
].
(** prob_emit.go:57906-57906 probEmit, state 305 *)
Definition emit_305 : list (Z * list Z) := [].
(** prob_emit.go:57907-57954 probEmit, state 306 *)
Definition emit_306 : list (Z * list Z) := [
  (148257809284274570, [0x65b9]);
  (210340461182306500, [0x4e00]);
  (220324330229658340, [0x6b64]);
  (251570364935319150, [0x540c]);
  (265088502979779730, [0x6240]);
  (347191779982539500, [0x679c]);
  (366105101512876050, [0x8005]);
  (367055980309778770, [0x56e0]);
  (371118277283880100, [0x4e0b]);
  (374662952183454840, [0x4e0d]);
  (378516318583679160, [0x8ad68bba]);
  (387477534452647850, [0x662f]);
  (389649386848112120, [0x7684]);
  (395612098398043080, [0x63a5]);
  (406572779051970800, [0x800c]);
  (409694280986763300, [0x4e4b]);
  (423816923871395500, [0x81f3]);
  (434165884643597000, [0x53ef]);
  (437652767208679450, [0x5982]);
  (443634616729770500, [0x4f866765]);
  (448547885587534900, [0x53e58a718bdd]);
  (459163905170374000, [0x4f539ad4]);
  (462003852622543750, [0x7136]);
  (478038117630061700, [0x8a00]);
  (483498531033546900, [0x5c31]);
  (504419576734575500, [0x4e0a]);
  (526106970564636900, [0x607076f8]);
  (582264052841759500, [0x5bf95c0d]);
  (607004870173143600, [0x8fc7904e]);
  (624189895865809500, [0x5176]);
  (639952790286167900, [0x6709751a]);
  (661659240809950600, [0x8aaa8bf4]);
  (697760575363683700, [0x52a0]);
  (722272821166982100, [0x5730]);
  (727988662550977050, [0x770b]);
  (832134050033793200, [0x8d77]);
  (941995278900604100, [0x524d])
].
(** prob_emit.go:57955-58091 probEmit, state 307 *)
Definition emit_307 : list (Z * list Z) := [
  (138016742729238780, [0x4e00]);
  (194705703611505590, [0x4f866765]);
  (216313281840721600, [0x9645969b]);
  (267941809341343530, [0x4e0d]);
  (292748757639402020, [0x5f97]);
  (310553581668816660, [0x672c]);
  (362382891892136570, [0x65f66642]);
  (371968769524671800, [0x7531]);
  (388090554229706900, [0x5e45]);
  (389279628881859050, [0x53ef]);
  (393931630445348360, [0x4ec550c5]);
  (405475247210005100, [0x80fd]);
  (433356634174150700, [0x81f3]);
  (441686713933460150, [0x5757584a]);
  (451440201416103800, [0x6b21]);
  (453011501982559400, [0x9762]);
  (466558753243846200, [0x70b99ede]);
  (485937351912311600, [0x4e2a500b]);
  (493106544757923200, [0x52195247]);
  (497245066374208600, [0x8fc7904e]);
  (501930608102359200, [0x591a6216]);
  (514496134997178200, [0x52b252c1]);
  (520088990263100650, [0x4f539ad4]);
  (527909064993848100, [0x5730]);
  (547976134540063200, [0x898b89c1]);
  (548562646485303100, [0x6761689d]);
  (549152618698021800, [0x5bb9]);
  (553382856667090800, [0x5306]);
  (554002053691882900, [0x5934982d]);
  (555252069968306000, [0x7741775c]);
  (561078960780703600, [0x4e0b]);
  (562421262813917700, [0x8e0f]);
  (573862297931692100, [0x6839]);
  (582563435630655100, [0x610f]);
  (589403708319095200, [0x5f62]);
  (592094453611087600, [0x8ddf]);
  (602630505176870200, [0x59485df4]);
  (606754801030275100, [0x5b9a]);
  (613278853217115200, [0x4f1a6703]);
  (614408808742508600, [0x5176]);
  (631735980869912250, [0x6e9c]);
  (633096546075490100, [0x5c31]);
  (637292965985393300, [0x59297a9d7aa981ea]);
  (649429051685820000, [0x898f89c4]);
  (651055103772998050, [0x8ca08d1f8ddd]);
  (659607321116814300, [0x4e8c]);
  (672960460379266600, [0x8a088ba1]);
  (675022389099540100, [0x8f498f6c]);
  (688375528361992400, [0x7e8c7eed96469678]);
  (701050698925906800, [0x9aa8]);
  (703790596344718200, [0x8001]);
  (715568899910356600, [0x60bb]);
  (718743769741814550, [0x53e3]);
  (722022752024113700, [0x6df18eab]);
  (725412907191681800, [0x660e9053]);
  (728922039172808800, [0x9867987e]);
  (740254907703509200, [0x65b98a188bb0]);
  (753038244854497700, [0x7684786e78ba]);
  (778821155784707600, [0x751f]);
  (784883617966351100, [0x602a]);
  (798236757228803400, [0x771f]);
  (813651825211529100, [0x5167518572e0800c]);
  (842420032456707300, [0x65e96b63]);
  (854198336022345700, [0x600061f7660f99ac9a6c]);
  (867551475284798000, [0x5fd9]);
  (901198698946919100, [0x53e4593a596a632868076a196b23958095e8]);
  (923513054078340200, [0x5916600560b5]);
  (952281261323518200, [0x4e095b9e5be6]);
  (992827772134334700, [0x51b780a190599065]);
  (1062142490190329300, [0x51c6523659275e265e366e96811a8173])
].
(** prob_emit.go:58092-58092 probEmit, state 308 *)
Definition emit_308 : list (Z * list Z) := [].
(** prob_emit.go:58093-58093 probEmit, state 309 *)
Definition emit_309 : list (Z * list Z) := [].
(** prob_emit.go:58094-58095 probEmit, state 310 *)
Definition emit_310 : list (Z * list Z) := [
  (0, [0x5bb6])
].
(** prob_emit.go:58096-58096 probEmit, state 311 *)
Definition emit_311 : list (Z * list Z) := [].
(** prob_emit.go:58097-58122 probEmit, state 312 *)
Definition emit_312 : list (Z * list Z) := [
  (85485790395439590, [0x5317]);
  (116356513023195470, [0x5357]);
  (220421563084538660, [0x897f]);
  (365028173526519460, [0x4e0a]);
  (367969562047148770, [0x540e5f8c]);
  (381536148562464300, [0x4e0b]);
  (394280643219276340, [0x811a8173]);
  (414671862157908600, [0x4e1c6771]);
  (437284280103143300, [0x4e2d]);
  (474889402393330400, [0x524d]);
  (481633530472883600, [0x51675185]);
  (505117489580623800, [0x5bf95c0d]);
  (563309644125595900, [0x54689031]);
  (586948521932018900, [0x5f537576]);
  (696809750798829900, [0x959395f4]);
  (788438823986245400, [0x8fb9908a])
].
(** prob_emit.go:58123-58123 probEmit, state 313 *)
Definition emit_313 : list (Z * list Z) := [].
(** prob_emit.go:58124-58124 probEmit, state 314 *)
Definition emit_314 : list (Z * list Z) := [].
(** prob_emit.go:58125-61301 probEmit, state 315 *)
Definition emit_315 : list (Z * list Z) := [
  (298168363535231370, [0x4e0d]);
  (388288189742478670, [0x65e07121]);
  (403190258333266300, [0x4e4b]);
  (404221696882903100, [0x800c]);
  (404319553823875700, [0x4e00]);
  (441933189940522200, [0x4eba]);
  (442361945778136500, [0x5fc3]);
  (447293969653180800, [0x53ef]);
  (453213590777570800, [0x6240]);
  (477690366783029900, [0x5176]);
  (478386092936971200, [0x5927]);
  (482152228400602100, [0x6709]);
  (482665269286497200, [0x5982]);
  (485402785441095300, [0x4e3a70ba]);
  (491768570618293000, [0x81ea]);
  (491909514968616400, [0x5929]);
  (509382920344995700, [0x76f8]);
  (509494965174644700, [0x7136]);
  (510452449256670500, [0x8a00]);
  (516278208213560800, [0x5934982d]);
  (528176559812824000, [0x4ee5]);
  (541684258611454400, [0x6210]);
  (542772916330755900, [0x5728]);
  (543952639017959900, [0x624b]);
  (544190262892148200, [0x98a898ce]);
  (546354676042106800, [0x52a852d5]);
  (547741887189887400, [0x751f]);
  (550237857027673400, [0x77e5]);
  (555336153282839700, [0x53e3]);
  (557034897753603400, [0x4e07842c]);
  (557849750609993900, [0x6c146c23]);
  (560521489443865300, [0x58f08072]);
  (562311457158874600, [0x516b]);
  (566981566463472700, [0x4e0a]);
  (567280818557118050, [0x76ee]);
  (569503132235589100, [0x4f5c]);
  (572615416627647400, [0x540d]);
  (573568308962235200, [0x610f]);
  (576045549262993600, [0x601d]);
  (576702006762644300, [0x5730]);
  (576921787070892300, [0x6b7b]);
  (579823776428244100, [0x8db3]);
  (583868232909449900, [0x898b89c1]);
  (585652932271955900, [0x99ac9a6c]);
  (586739243497693000, [0x591a]);
  (587592387002639900, [0x540c]);
  (587714860992229400, [0x5c71]);
  (587837485164553900, [0x672a]);
  (587960259888386100, [0x4e8e]);
  (588206262472472400, [0x82b1]);
  (588452871721991700, [0x4e8b]);
  (590826499711874750, [0x51fa]);
  (591587924710399300, [0x8eab]);
  (592741044470318300, [0x767e]);
  (594038079514581000, [0x9ad8]);
  (595087957924403000, [0x5c0f]);
  (595617059687844550, [0x5bb6]);
  (596952193005330900, [0x96be96e3]);
  (598033284615752500, [0x529b]);
  (598305393627188600, [0x5f97]);
  (598578245092509000, [0x706b]);
  (599263648735288300, [0x4f866765]);
  (600509339583817700, [0x9762]);
  (600928042219239340, [0x7531]);
  (601068000254681700, [0x795e]);
  (601489053508316000, [0x4e2d]);
  (602905507785181200, [0x4e16]);
  (603048262984299650, [0x91cd]);
  (604487136729509600, [0x60c5]);
  (606389169197412700, [0x60ca9a5a]);
  (606685027401387200, [0x7acb]);
  (607877291897077750, [0x5206]);
  (608780912503471500, [0x4e096b63]);
  (609692772925114900, [0x5373]);
  (609845561342920300, [0x5f537576]);
  (615184348684726400, [0x8d77]);
  (616483068237407600, [0x6d41]);
  (616974469717650500, [0x82e5]);
  (617633450685556000, [0x6b32]);
  (619468364552375700, [0x65e5]);
  (619974694748030300, [0x5c3d76e1]);
  (620144042798663600, [0x5bb9]);
  (621509251715496400, [0x6c34]);
  (622893356856683500, [0x5165]);
  (623944154616525000, [0x5931]);
  (624650871338834300, [0x65f66642]);
  (625006111499271000, [0x884c]);
  (627894398914149700, [0x52bf52e2]);
  (629370440472461700, [0x5343]);
  (632007128056535900, [0x5948]);
  (632581292313303500, [0x4ea4]);
  (632965908172051250, [0x773c]);
  (633158772262691800, [0x89e689f8]);
  (637498703816147400, [0x8a088ba1]);
  (637902744769847900, [0x9577957f]);
  (638308424839409300, [0x571f]);
  (638920047541152950, [0x4e714e82]);
  (639535434098590700, [0x9867987e]);
  (640154631123382900, [0x6253]);
  (640986236747548600, [0x4e9196f2]);
  (642035564319132500, [0x660e]);
  (642670487086998400, [0x4e2451695175]);
  (644599807380466200, [0x4e86]);
  (645033647540326100, [0x51497d937ecf]);
  (645251275482585650, [0x590d]);
  (646346576684505350, [0x5e9461c980fd]);
  (647009562538372300, [0x8f158f7b]);
  (647454007714414700, [0x5e7365b9]);
  (648348868272016200, [0x673a6a5f]);
  (648573840245417700, [0x76f4]);
  (649025308280870300, [0x5f00958b]);
  (649706355181123000, [0x4e0b]);
  (649934405450995540, [0x6b648aaa8bf4]);
  (650392072153736760, [0x53bb]);
  (650621693379771800, [0x60f3]);
  (651545487478265350, [0x4ee3]);
  (652712361861703100, [0x529f]);
  (654130825360898700, [0x519b8ecd]);
  (654369204496426350, [0x5403]);
  (655328444465570300, [0x72ec7368]);
  (655811537192536900, [0x6613]);
  (656296975039016700, [0x7d507ed3]);
  (656540580518804800, [0x53ca7ffc]);
  (656784780884360000, [0x5e74]);
  (657029579048223900, [0x4e1d51687d72]);
  (657520980528466900, [0x843d]);
  (657767589777986200, [0x4ff15230]);
  (658262640293971800, [0x6c11]);
  (659260154799653800, [0x7709]);
  (659762668419921100, [0x626c63da]);
  (660267719998528000, [0x4e9482e6]);
  (662055762526312800, [0x6df1]);
  (662313827185662000, [0x5bcc614c]);
  (662572559542157100, [0x524d]);
  (662831963059861700, [0x88e191cc]);
  (663092041229867500, [0x6ce896e8]);
  (663876358975970100, [0x6c42]);
  (664931777743839100, [0x8a718bdd]);
  (665197382149650700, [0x53d1767c]);
  (666266911061325500, [0x8272]);
  (667076632084587500, [0x59168f498f6c]);
  (667620111683183100, [0x4e50534a6a02]);
  (667892963148503500, [0x53cd79bb96e2]);
  (668440909724966000, [0x7cbe]);
  (669824057639812200, [0x671d]);
  (670102997848570150, [0x7b11]);
  (670663223403437100, [0x5229]);
  (670944517541098600, [0x597d]);
  (671226605175262700, [0x662f]);
  (671793178928830400, [0x8986]);
  (672077674142053550, [0x7259]);
  (672649104268397400, [0x5408]);
  (672936048511192700, [0x540e5f8c]);
  (673512418982867700, [0x901a]);
  (674968048760288500, [0x65578d25]);
  (675261734727619400, [0x4e8c]);
  (675556285750595100, [0x864e]);
  (675851706940338300, [0x9053]);
  (676148003453403900, [0x8001]);
  (676445180492319700, [0x8d70]);
  (677342047490595800, [0x52c3]);
  (677642799596991300, [0x783496489673]);
  (677944458950933900, [0x98db98de]);
  (680391064166374450, [0x52dd7f6e80dc]);
  (681012184175638500, [0x6ee16eff7a7a]);
  (681324196909262900, [0x5f62]);
  (681951158210622500, [0x9f8d9f99]);
  (682899032606076900, [0x4e3e4f17773e8209975e]);
  (683855977707691900, [0x6587]);
  (684177005270716700, [0x5b9e5be6672c]);
  (684499066740721000, [0x4fe1]);
  (684822168798865600, [0x671b8b008c0b]);
  (685146318191282700, [0x5b9a5f375f3a8fc7904e]);
  (685471521729920400, [0x958095e8]);
  (685797786293402000, [0x50125f71]);
  (687113594751153200, [0x62186230]);
  (687445270013752550, [0x5171]);
  (688111939149571500, [0x5b505f205f35]);
  (690139035586933400, [0x7406]);
  (691860248475045600, [0x8840]);
  (692557115406654860, [0x4e3481e8]);
  (693611606724316400, [0x81f4]);
  (693965589394828800, [0x606f]);
  (694677336171715200, [0x542c807d]);
  (695754545869906300, [0x7686]);
  (696116209916925100, [0x5236]);
  (696479186721983000, [0x5dee607660e1]);
  (696843485849833100, [0x5fc5]);
  (697209116970144200, [0x5148]);
  (697576089859040400, [0x541e]);
  (697944414400670100, [0x65ad65b7]);
  (698314100588802700, [0x6ce2]);
  (698685158528456300, [0x8033]);
  (699057598437554400, [0x582a6a21]);
  (699806665610470300, [0x4e036d0b]);
  (700561386174008500, [0x9f13]);
  (700940893270863700, [0x56de5f526b78]);
  (701321846112530400, [0x4ef750f95b89]);
  (701704255756370800, [0x53f3]);
  (702473490318686360, [0x52a0]);
  (702860337996478400, [0x77a977da]);
  (703638552040683900, [0x60258349]);
  (704029941972797500, [0x5be16295805e95fb]);
  (704422869786786500, [0x636263db7518865a865b]);
  (705611002575461700, [0x984f989c]);
  (706010204702415500, [0x897f]);
  (707217462825842400, [0x83ab]);
  (707623142895403840, [0x4e4e8a2d8bbe]);
  (708030475434167400, [0x58026a2a6a6b]);
  (708439473959320000, [0x4e497fa9]);
  (709262523872971500, [0x6b656cd5]);
  (710092404154441000, [0x5c316211623662378fde9023]);
  (710929229121492700, [0x9b3c9b42]);
  (711350282375127000, [0x5584]);
  (711773115986079100, [0x516d7d1b7eb7]);
  (712197745074224300, [0x81f3]);
  (712624184952870000, [0x5316547c]);
  (713052451132070100, [0x5200]);
  (713482559322009200, [0x5f80653e]);
  (713914525436460800, [0x77aa8fdc9060]);
  (714348365596320600, [0x8cab8d2f8fd89084]);
  (714784096133216200, [0x4f9d6e90]);
  (716102796561411600, [0x6839]);
  (716991691303136100, [0x52075fe76182624d771f]);
  (718340026336864850, [0x76ea8361]);
  (719249123506990100, [0x4f55]);
  (719706790209731200, [0x4e4556fd570b6307]);
  (720166561134594200, [0x516c5b9865d7679d]);
  (720628455720223650, [0x4ece5f9e622a7f577f859732]);
  (721092493675873850, [0x541063a5]);
  (722027079917697600, [0x63a1899689c691c7]);
  (722497669021438900, [0x4e2651745e76820889c089c2]);
  (723445543416893200, [0x5bfb5c0b6c5f75db]);
  (723922871292159000, [0x51626168]);
  (724402488518508300, [0x5468811a81739031]);
  (724884417162103200, [0x6d698089]);
  (725368679609682050, [0x9014]);
  (726344297104218500, [0x594b596e6d7776d684cb]);
  (726835698584461400, [0x5e7f5ee3]);
  (727329526748519700, [0x56db5f7c77f3]);
  (727825805682732600, [0x6cb87d557edd]);
  (728324559833836500, [0x5f85]);
  (729835923614841300, [0x64166447]);
  (730344830565588400, [0x559c]);
  (731370480582307400, [0x67816975]);
  (732928953683977200, [0x54395bd2738979c17e8c7eed]);
  (733453889272591600, [0x526f]);
  (734512100205645300, [0x8f5f8f70]);
  (735045434803181500, [0x4f59591c60f69918]);
  (735581629117320000, [0x53d65f027570]);
  (736120713980807650, [0x602a7d047ea6]);
  (736662720727741600, [0x821e]);
  (737207681204498000, [0x517365368b588bc691d195dc9aa8]);
  (737755627780960600, [0x5ff566f479ef7a4d]);
  (738860611399619100, [0x60276d4e6fdf]);
  (739417715904564700, [0x53e454017c729ed8]);
  (739977941459431700, [0x51b2767d885d]);
  (740541323231257200, [0x6728]);
  (741677699096288700, [0x4eca52a152d9593a596a6478]);
  (742250766567187300, [0x58755b585c18803f9f4a9f50]);
  (742827137038862250, [0x70c8]);
  (743406848807294800, [0x4f26502b]);
  (743989940838374150, [0x5c065c07654c6575]);
  (744576452783614000, [0x67088857]);
  (745166424996332800, [0x68cb8f1d8f89]);
  (745759898548314200, [0x5c4867436b0a6c926ca1]);
  (746356915246964600, [0x6301]);
  (747561749098582100, [0x554f598465b095ee]);
  (748781276407963950, [0x584c65e29996]);
  (749396662965401700, [0x4e0e4f53601282078ad68bba9ad4]);
  (750015859990193900, [0x59737fa4]);
  (750638914965257400, [0x5f696298719f8fd1]);
  (751265876266617000, [0x6bd492d2950b]);
  (751896793185943500, [0x5c455d29]);
  (752531715953809300, [0x8fd0904b]);
  (753813784796715500, [0x7d307ec696ea98df]);
  (754461036247277200, [0x54116d3b6e058ff79006]);
  (755112504349396600, [0x5b57817e9a30]);
  (755768244404012500, [0x59476069]);
  (756428312807147700, [0x559866b475c589e38eca8f66]);
  (757092767079014500, [0x4e5d]);
  (757761665894094300, [0x6b8b6b986bdb8aa08bda]);
  (758435069112228600, [0x5357788e80058863]);
  (759113037810766500, [0x5fcc8def969096b1]);
  (759795634317806550, [0x4e2755aa5fe17d9c7efc903c]);
  (760482922246582700, [0x7a4e9896]);
  (761174966531040100, [0x4e95534e541b5bc660506de183ef9f0e]);
  (761871833462649400, [0x6625]);
  (762573590728514100, [0x5de770c2721b]);
  (763280307450823300, [0x76ca]);
  (763992054227709700, [0x59996b666fc0]);
  (764708903175570900, [0x5b665b785df17a817d057ea2]);
  (765430927972919700, [0x58c15fd8652f]);
  (766158203905827700, [0x52175b88606d86c7]);
  (766890807915034900, [0x52b352de58576d82707d707e8352]);
  (767628818644797200, [0x544a6b226b61]);
  (768372316493549000, [0x70b98ca18d229ede]);
  (769121383666464700, [0x590480c68111816681bd86558f098f7d900095ca9614]);
  (769876104230003000, [0x583162a56bd5752875628179]);
  (770636564168525000, [0x518d592b65c167aa69cd]);
  (771402851443081900, [0x5225522b537156fe571691d894899ec39ec4]);
  (772175056052472900, [0x5f815fb575be8ac78c08]);
  (772953270096678400, [0x63d06c886c897978798d]);
  (773737587842781000, [0x5077688175b2]);
  (774528105793492300, [0x4f1a6703753b756b]);
  (775324922758410000, [0x56346d256dfb]);
  (776128139928136500, [0x5473558a725b]);
  (776937860951398400, [0x70df7159]);
  (777754192015314500, [0x59545e725e798cb48d358fb9908a]);
  (778577241928966050, [0x4f3c5fd96761689d]);
  (779407122210435500, [0x4e3d5f046234669796449e97]);
  (780243947177487200, [0x504753d75ea662e564c1]);
  (781087834042073700, [0x5d166551661f6d6a7d427ec8]);
  (781938903008864550, [0x5faa]);
  (782797277378003600, [0x547d58ee58ef59cb66f2706f71c872b972d773367c737e418b398c28]);
  (783663083652315200, [0x4e66612461a466f88015]);
  (784536451649190600, [0x52a957ce5ead7b797c4c7da27ef8]);
  (785417514617406100, [0x6c796d367e797ece96f7]);
  (786306409359130700, [0x4eb2540a793c79ae7a777aae89aa]);
  (787203276357406700, [0x902296de9e219ed1]);
  (788108259909398500, [0x613f68116a398fb18fbe90549858]);
  (789021508265725750, [0x6ed488ad8972]);
  (789943173776218200, [0x4ec14ec75cfb6cf0]);
  (790873413042449500, [0x4e1c57c3656367719038]);
  (791812387077433400, [0x726984828f9e8fad96c0]);
  (792760261472887800, [0x751a]);
  (793717206574502800, [0x5e38666f7d667ed991dd9488]);
  (794683397665676600, [0x600061f765e66cbb72fc7cca915291ca91cb]);
  (795659015160213000, [0x4e89517c5922654568a66c61722d79cb]);
  (796644244804514200, [0x52c7534f535454845f845f91667a67406bba85848f9b]);
  (797639277889831000, [0x5b9d5bf65c146829723e80cc968f96a8]);
  (798644311475181100, [0x517b56e25718592a608560a67e5a7f2d7f8e88c588dd990a]);
  (799659548621582950, [0x5bf85df25fd160d162d49813987f]);
  (800685198638301900, [0x4efb5341731b822c]);
  (801721477341856600, [0x59ff5e8f6349660f6d88947c9523]);
  (802768607328586000, [0x67d46da86f3282398ce28d249057907a9677]);
  (803826818261639700, [0x51db51dc59445e085e265e2b5e36697c6a136cb377407dbd7ef084578c6b]);
  (804896347173314600, [0x56f0637a8ca08d1f]);
  (805977438783736100, [0x5e06609a6f1370707e7d7f24895f904d]);
  (807070345836955200, [0x54ed7d197eb880a081789010901f928094f69664]);
  (808175329455613700, [0x520357f76001614b62676655668878a78877]);
  (809292659515426200, [0x5147517751f653cc5be562db6b3a768796d9]);
  (810422615040819500, [0x4e614fd7538c53ad53d85f2974e68b8a9109]);
  (811565484623181800, [0x4ea6659981548e48943594c1]);
  (812721566863289400, [0x62e9632f64c77aff8e749059906590c19b319f20]);
  (813891170839608500, [0x5317601565187df47ec3803880738de18e358ff9]);
  (815074616604308800, [0x4e4c4e5870cf754f932294b1]);
  (816272235708980400, [0x4ec650d55de5670d671f]);
  (817484371762214800, [0x4ee452ab5c0a623f8eac]);
  (818711381021396400, [0x5b975de86cc46d297db27f518b1d8c228dcb]);
  (819953633021252000, [0x539a62d876d876e47b147b4688229633967d9761]);
  (821211511241938000, [0x54ab6cea6dcb6dda6ede6eef804a]);
  (822485413819681000, [0x5a46886588dc8981]);
  (823775754303271800, [0x5fcd6714767b7de37f189020984c9898]);
  (825082962460007000, [0x52d253f95606633d65bd795f79bd932f9519]);
  (826407485135009200, [0x53a25ec2653b6b2378c58108810981c2826f8dc38e8d8f148f85]);
  (827749787168223200, [0x626b6383695a8abf8c0398189886]);
  (829110352373801000, [0x505c51cf6e1b]);
  (830489684587034600, [0x4f7f523b548c5915684871157165738b810f81df]);
  (831888308784508500, [0x538953b254095524559a589e70af70ed71b17b807c21812b8131]);
  (833306772283704200, [0x5f6c62b967426e106f3879f07a317d2f8e768fe296dc99999b419b5a9c7c]);
  (834745646028914100, [0x509951a05907659766436ee56feb72ac73727bc783b78f9f95e29b25]);
  (836205525971029400, [0x52125269528353865f2662f36b776e207247]);
  (837687034549543500, [0x4f2450b755835feb6beb71df842596359663]);
  (839190822285997700, [0x53f755bb56365c8c6b4c7ad67c7b7ffb865f8c4e8c8c8fdb9032985e]);
  (840717569499076400, [0x4e1a4f73521d59375ced6302639b677f696d6deb707571997405746f7a837aca8d6b900290699748]);
  (842267988152673000, [0x4ef0539f57cb60436ec5706d77db7e7c7ee78a939b54]);
  (843842823849486800, [0x4e705fd764e66570657870997bad7f9e8cb7907f959295f297529a459a71]);
  (845442857984131000, [0x504f51b553565bf95c0d620868516cc1770880f88a6d8be18ce3966996aa96d59806987a]);
  (847068910071309000, [0x4f3654ac5e025e2d63cf69ae6df778ca83638cca8d3c8df391899759975c9802987699b399d599ed9a709a7e9a87]);
  (848721840266430000, [0x4fed5109525454c456e058995b645bdf66fe7246804c807787038a9e8bed90bb9130]);
  (850402552098068100, [0x59495bb35c385c4d6cb970e7716771d273b276ae77017af9]);
  (852111995433998200, [0x5fc661b66350672b70e671697f627f77921e94a79bae9c9c9cf49e23]);
  (853851169705185000, [0x505a533f6296632866ae929894ed]);
  (855621127415125200, [0x5178542f555f655965626789759177ed7f3a8a5e8bcd8ffd9003]);
  (857422977965393000, [0x503c51955986599d5ba05bf55f2f5f4e604d611f63a867956d957f549326952698c498d8]);
  (859257891832212700, [0x53f65eb8614865af662d683c68f16b626c9975327e2e7f2984498e0f96f6]);
  (861127105133428000, [0x4f4f51cc5374537b59625f035fae609460f468c47825798179fb898f89c4]);
  (863031924630497500, [0x53535bd05c65624e7275727d777d7a7482df9f3b]);
  (864973733216207600, [0x4f2050b353db54c0578260b66574663e665a806a807095f7986f]);
  (866953995945825500, [0x507f511f52195247536758e45b9c5c515f7b5fb95fe060a36cbe6f8e72c872fd81e5821f89d28a508bc891dc]);
  (868974266677577500, [0x4f8351e164de64fb684368ee7a8d7ac58e8791ce9418949f9808987b]);
  (871036195397851100, [0x4e4d53775b545e1c5e5f5e9562ac773682cd84bc8cbb8d398d8a]);
  (873141536317634200, [0x4e8f4ec54f1050c55251528d530556a356c2586b5ec95f1362ff638865a965ac6eda6efe6f9c703e78e886679b449c57; 0x9cde9f529f7f]);
  (875292156839730700, [0x517d519253f0604b620073787e317eb5853d88968ca78d2b985b98a0]);
  (877490047511608200, [0x6d8e6daf75ae7621778e798f7d0d7eb380a582929a5f9aa4]);
  (879737333096814000, [0x56ca58eb5f3160dc6108614e62c96539679c6b216d9b6fe472af73a97537756a7e6a7ed880ce8868980c9882]);
  (882036284919284000, [0x4f0f508d53c858835cb85f395f4864bc65cb698274dc7791793a8102900190aa98e29965]);
  (884389334660303400, [0x4fdd5ef66c936ca76ce56ec47565768476db7dad7ef47f75871a8a0a8acb8baf8bf7927494519811987d9a82]);
  (886799089818209300, [0x51c051ff5339561758fd5bff5c1d606560b26de875357559770b7965803b8471852588f891cf947f96fb]);
  (889268351077246600, [0x4e144e394fca5347573a58345e376311638c65776d476f6e6f8677bb85aa903e90e8]);
  (891800131875675500, [0x53c253c355a757475939593e5df76d1e6e387a3d7aed7d717edf7fc1804b807e846c89bd89c88a858bdb904a98ef996d; 0x9ce59e1f]);
  (894397680516001600, [0x51e4521153e5547559885a015abd5e8a602860ac60fa61f862586292629762a26436643a651c659f65a46fe1727972d0; 0x7b978a728be58d138d439cf3]);
  (897064505224217800, [0x5106535555ae5e1862b166276ca5701d72c27bc07c3e828283a090ce958395ea963496469670967898fd9971]);
  (899804402643029100, [0x4ea1559d55b7567457a25e7b60df65e9670b710975f975fa82f184b89318952496cc]);
  (902621490339698700, [0x541254a45507558b5b8f5c115fb762cd67af67f36d127051707f708e71e6758f77e279567da07eff7f5a7f7083058c6a; 0x8d749685]);
  (905520244027024000, [0x4f545360538b57065713575058a858d359cd59d75c3e5ffd64d268856c6a72e073d174cf76d776dc79d17c417c5f7d61; 0x7e397edc7f2585cf8a958bde90639db49e64]);
  (908505540341992200, [0x513f515253f5585e597859e65b815be763a2653865e76c9b7d227de97f137f557f8a820a]);
  (911582706208667500, [0x5b8c5cf05e84632064936614818f838a871c8af18bb397399d3b9e3f]);
  (914757576040125500, [0x51e052ff56bc592d5e7e61c862d376347dbf7ef580eb811b81518273827784c48a318af88bb88bf88d168d4e96c49c32; 0x9ccc]);
  (918036558322424600, [0x4e3051b351fb52fe5404542654a75b875c015c1a60ef6163616e62ab64ca6572669668096adb6c7a758676267bf17c6c; 0x7d1a7e377ea77f15865188618c508c9e8d1e8da39704]);
  (921426713489992700, [0x4e384fee59bb59d35c245df463a9679a6e56738477667bb17d147d2b7e547eaf7ec78c378cea8d28964b]);
  (924935845471119800, [0x51b051b7532e5331535a59555c4b60e961f2628062bd635e648865f766e06bd26c9f6ce16e9d77287a0b819c8346834a; 0x88e88a0e8ab08ba88c018d768d958ed28f6996999edc]);
  (928572609888207300, [0x4fc3514553f859385a9260f962dc639267b66d8c6e676f6d727a72a777ac786c7a337a697ae07ba17fbd809d82b38a66; 0x8a878bd5]);
  (932346642686492000, [0x535154365450552f5531632464e06591668767976c646e6f74697a7f7b268054806f813881c983b984ec8ca88d2791e3; 0x949397f39a419a9c9b3b]);
  (936268714001820000, [0x4e2550fb545854e156b45b595b6b5e035e3c5e57610e63d26405652a66026cc96d456dfa7b4b7db17eb28339865e86ee; 0x883b8d668fbd907c95d695ef9e7f9e9f]);
  (940350913453845600, [0x4e13501c503e50be515a5320533b53f254e556325c086101627663c9649e68376a236b836cfc6f5171a0751c7a767ae5; 0x7cae7ce7808c80a9849c853c85e485f991ab99109ee8]);
  (944606874895725200, [0x545c55da5bb55bc25c3a5e9f5ee2660c674e6d436d7971d573cd74a7788d791979c07fe986798aeb8c0f8e2a8fd495a8; 0x95fa971c]);
  (949052051152808600, [0x4e4f4e7e50b256f95b7a60ed615a620e656c65a76ce36cfb70097ca580008f458f959b4f9d729e4a]);
  (953704052716298000, [0x4ed94fbf554655f7564e57515a075ac95b0c5b855c3f5f156323639963b764f26b676c418caa8d2a934b950598f2996e]);
  (958583069133241000, [0x4fa7507451a4549254d75629575a58055ae35bdd5be25c815e9c618e621a62e8632563ee644664a564fa654866206750; 0x682a6b7275c77e1f7f1b7fc5805a899389c58c618e4a8fb0970d9738]);
  (963712398571996200, [0x53ea598759d45a1c5a665a775deb61c2621262c667ef67f46a906d6e6d896da36dc66e196f6670897210732e737b75bc; 0x781678da7a207b547c3781ed82708271878d888588ca8adb8c008fea90509645969b9ebb]);
  (969119120699023600, [0x4e5e4fce502553525a5a5a9a5c965d875f255f4c62e362fc636d63c065f067176c496e216ed16f22702370ae70db71ed; 0x73e075f476d0788c7d207dd87e617e8f7ee37f047f2082b88b498bc1917191ac947d94bb9e7d]);
  (974834962083018500, [0x4e014eab4ead53eb5b5c5bb0616262516367636e64b264da66a26df56e0a707c70c17130720d7545769376c67738782d; 0x7a977f6a809681e3820c866b87f2884d97079ee99ef7]);
  (980897424264662000, [0x4e084e884ea24eae506553e0556756165ba25ba45bbe5ce65dd25e16620f6232656665a5665266ec672f68656a4b6f0f; 0x7262758a78027c3f801080e183c5868c874987ec88538c468cb68cd38d2c939693d8943a94db95019535965096949706; 0x976997cc97e798af98d29d069e29]);
  (987351276378419100, [0x51ed52725eb76191699c6b796d4b6e2c6e4e704c718a7a007e2b7f1d81fb93e1955c959395f49a169a9b]);
  (994250563527114300, [0x4ea84ed8514b522e5a135a625efa631e64bb6734680b68df6a386c386cfd6d3e6fa47aef7cfb81508336836b852d8eb2; 0x8f128f849042906e9a559a849b139b22]);
  (1001661360742486400, [0x4e3b4ecb51a5535c54c154f260e86158617766686bcb6e2d71e57236733f76827691769a795b7d5d7ed480f681a082de; 0x87138cf48d568e668fa8901e90a6914a958995ed963298fe99709a579a8c]);
  (1009665631509840200, [0x4f4d5167518553ae548e57235b7d5c425c645edd622e62fe63636417642c6768694a6b2076fc79d27b497c897d027ea3; 0x805680a4814b819a827e834f86cb88d58a558a898b7d8bc48cbc8cde8d348d4f8f2a8f6e90ed9234931094c39525983b; 0x9891]);
  (1018366769208803100, [0x4e114e184e734f0e4f18512a5306541d542d54c956f4570d5c79611b62c864cd68cd6c6072317334736076ce789178d0; 0x79e38106819d8299846b888d8b208b2c8c238c2c8cdc8d5090059190919c971e981098849ea59ea6]);
  (1027897787189235500, [0x51bb51cd536f5ba35c405f875f92606861d261f6666666f96807680868e76a196dd16e3470bc7149728077377a957ce0; 0x8165820d88ab8a1b8bb98cc28d428edf8f6f9163963b96769b459b4d]);
  (1038433838755018200, [0x4eea4ef24f014f2a4f4e4fd05055507d51005154537f54385446544855d456ed571258f658fa5c4f5c6f5d9961276252; 0x63a0641467e568fa6b846bd66c576d4a6e3a6fc172f875cd76d47aa57aba7def7eac80b282d7832b835f858888548af7; 0x8bbd8cfd8d5b90479296929c94e29760977497ad9a629a74]);
  (1050212142320656600, [0x4ed751dd523a525d526553a553a6542b547b57605851589c5b5d5de25dfe5ec8606360af60b161ab626d653f65d66cf1; 0x6e146f016f06743c749e74ca76c8772577267b567d137dd27dda7e6d7ebe7ebf7eea800380bf80d6816b8327853b88f9; 0x8ac48c068ce48d319d619e49]);
  (1063565281583108800, [0x50bb514d51ac521b527557fa59925c415c605de65e785f1f5f8b600f621f6492675c6d466db26ef46f3f73b073fe75a5; 0x7adf7fe080ba814a81d8827a85dd868187f987fb8b198c268f298f8890f890fd913296fe972797f597fb9d5d9e45]);
  (1078980349565834700, [0x4e1b4e5f4f5b509152b252c153cb53e25471572d575f58b359965f176270628a62d662f1634f639863fd64fe652c6770; 0x67f168d26b896d536e296eab6fc37530777978977aa67ac77cb180c18105818a836f842784dd856d85cd85e5867d8709; 0x886e889e88c18afe8bfa8d648fce917896d69905997c99ad9a6d9bc19ca0]);
  (1097212505245230000, [0x5029508551c451f0536b53ee5413541f543e54fc568756f557075811587959fb5bab5bae5bbd5bec5c045c165ce55d22; 0x5e7c5f555fff6062606c624764446458651d664f6731674f67b76d2a6dd26eaf6f7a715e732a732b7464747675af760b; 0x79cd79e67a2e7db87eb67fb9800b8071809a80a2829d83f286fe87e0885b89138aa88bf28c6c8c938cac8d238e1e8e3d; 0x8fdd8fe99055908790a392ea930494fa986b98a49a659aa59d289e2d]);
  (1119526860376651100, [0x4ed64f1f500d5049511251af51cb521a525b52e454155442576658d15bbf5c345c375d075d585db85dde5e1d60e06167; 0x627f62d96308637763f465c46c8c6d016d176d516e3e6f54701a716e731c75c8767076df77297aa07b2c7e5e7ed581fe; 0x82a68606872e88218a348bc98ce68d4b8dd1900f904f9119914d92b7950095ad95fe963f9647969c96b4981798399887; 0x989399ae99d29a799e1e9e3e9f779f8c]);
  (1148295067621829300, [0x4e434e604efd50cf51415179519952a3532153785420544057a3581558ae5a6a5b835beb5c9b5cf65f996029626f635f; 0x640d642d681768406b6a6bc06bc16da46ecc70b3728a72a272ee730e7345737575997741775c7792779e79fd7a627afd; 0x7b5b7b957be97d277d397dca7ecd7fd280dd83328a8d8aa48ba48bef8c558de38fdf907295cc960b9611964d96bd96c6; 0x96cb992e9a0e9a919b299d609e44]);
  (1188841578432645600, [0x4e194e324e564e92501f5028503a50b550e7519c51f8532f5543557c566856fa575b58c759575bc75ca95ddd5e1a5f0f; 0x5f905ffe611a613e62c562ec632a634b63766467646964d465126522655d65bc669166f066fc69a86a3d6b8d6bd36c47; 0x6c906dd86f5b6f5c70f972f173447387742a7434745c755c757876b176ba7768780d7a027ade7af67dbb7efd7f307f3d; 0x8017810a811081cd81e78238835c83ba84fd87028870888288c288d8891b89388a698ac28b928bd78c048c178c798cbf; 0x8d388dce8e598f618f948fb28fc19077946094b594c495a396019701973d97539756975a97c197dc97ec99c19a649a6a; 0x9a739a8a9aa79be89cb89d1b9daf9e33]);
  (1258156296488640200, [0x4e484ea54eac4ef64f0a4f38501a504e517051c651fd53155370539853df53e6548055df5669574f57575792584a58d8; 0x58de59d15de15e7a601c60d56190626a629a62c2633a636b63ed64ab64ad64ce6649664b66dd66f3673d6775679067a2; 0x69ad69c169ca69cc6a1e6bc26bcd6c836cbd6cca6cd76e966e9c6f0270ac7126724d725873af73ca742274b075747587; 0x778577e978cb79c97a9d7aa97b0f7c977cd67d0b7de87e1b7eb97f167f1a7f617fa17fa88086809883a883ea84c984d1; 0x852c862d886b8aa38b1b8b808bb28bec8bfb8c9d8d1d8d858f429044918791f5928592f893e4949794dc952f954296c1; 0x98f4994c9974999499df9a779b1f9ce99dbb9e209e589efb9f9c9f9f])
].
(** prob_emit.go:61302-61304 probEmit, state 316 *)
Definition emit_316 : list (Z * list Z) := [
  (69314718055994530, [0x59278179])
].
(** prob_emit.go:61305-61811 probEmit, state 317 *)
Definition emit_317 : list (Z * list Z) := [
  (166477265130244030, [0x5730]);
  (266707711168327900, [0x5c0f]);
  (268313384983767560, [0x4ea4]);
  (295917191030911300, [0x8054806f]);
  (297068433468481900, [0x4f01]);
  (299411458649320500, [0x76d176e3]);
  (335634681549680370, [0x9577957f]);
  (356279612896239950, [0x4e2d]);
  (371235855613942500, [0x59d4]);
  (393136702230583120, [0x5546]);
  (419057259431665400, [0x8fd0904b]);
  (426646468826387800, [0x690d]);
  (435697869580471000, [0x77f3]);
  (442446893740712600, [0x5168]);
  (458012224711891900, [0x57ce]);
  (470915250686265000, [0x5316]);
  (478050058766011700, [0x4e09]);
  (480656069432998100, [0x897f]);
  (481651102518315000, [0x4e004e0b]);
  (491817467895965000, [0x8dcc]);
  (494056367385312900, [0x5317]);
  (495961186882382300, [0x77ed]);
  (497121741494413100, [0x4eba]);
  (506497238448164900, [0x79d1]);
  (514965547171168800, [0x592a928094f6]);
  (521202580243814600, [0x5171]);
  (521698859178027500, [0x5ba15be97267]);
  (522197613329131400, [0x4ea77522]);
  (532179646857352500, [0x7406]);
  (534980950480119900, [0x526f]);
  (535550752591583650, [0x7ba1]);
  (543888913485488800, [0x653f]);
  (548334089742572100, [0x5165]);
  (552308122607523500, [0x652f]);
  (554355975741877700, [0x6797]);
  (557865107723004600, [0x8b498bc1]);
  (560763861410329900, [0x878d]);
  (562994437161759700, [0x9662]);
  (563749157725298000, [0x4f4e]);
  (569197976253704900, [0x73b073fe]);
  (570810914446693300, [0x51675185]);
  (574117000672782100, [0x5180]);
  (574960887537368600, [0x7a057a0e]);
  (577536137147610100, [0x65b07f8e]);
  (584746466537744400, [0x7d447ec4]);
  (585685440572728400, [0x5de5]);
  (586633314968182700, [0x6295]);
  (588556451160971500, [0x63f49b6f9c81]);
  (596641660823881000, [0x5357]);
  (597699871756934700, [0x56fd570b]);
  (598769400668609500, [0x7a7a]);
  (599850492279031040, [0x6210]);
  (600943399332250000, [0x68c06aa2]);
  (603165713010721100, [0x751f]);
  (605438538118476700, [0x5916]);
  (607764224334903400, [0x626964f4]);
  (612584434516691200, [0x9752]);
  (613826686516546900, [0x5175665a]);
  (615084564737232900, [0x4e245169]);
  (617648807798566700, [0x540e5b665b785f8c]);
  (620280538630304100, [0x535a7d007eaa]);
  (622983405869096000, [0x6536]);
  (624362738082329600, [0x8c6b8cb88d37]);
  (625761362279803550, [0x4e135c08]);
  (631560088044838400, [0x92b79500]);
  (633063875781292500, [0x50a8513280c08139]);
  (639315911479425900, [0x6d77]);
  (640941963566604000, [0x4f1753d16cdb767c773e7814]);
  (644275605593363100, [0x6c118ca88d27]);
  (645985048929293100, [0x5ba3]);
  (647724223200480100, [0x519c8fb2]);
  (651296031460688000, [0x77ff7926]);
  (653130945327507600, [0x5bb6753596fb]);
  (656904978125792400, [0x786c89e38def]);
  (660827049441120450, [0x6cd57d937ecf]);
  (664909248893146000, [0x5bdf8caa8d2a]);
  (667014589812929250, [0x75189ad8]);
  (669165210335025600, [0x82f1]);
  (671363101006903100, [0x4fdd60a3]);
  (673610386592108950, [0x72798001]);
  (675909338414578800, [0x4e94]);
  (678262388155598300, [0x59276392]);
  (683141404572541400, [0x91cd]);
  (688270734011296500, [0x4e8c56db]);
  (690937558719512600, [0x4ee373af74b0]);
  (696494543834993700, [0x51fa767e]);
  (699393297522318900, [0x65596fb3]);
  (702378593837287000, [0x4e2a500b602596469678]);
  (708630629535420500, [0x53f3]);
  (715299766985287600, [0x5148516c52e49644]);
  (718808898966414700, [0x5236805e9326952695fb]);
  (726219696181786900, [0x516d7d057ea28fdb9032]);
  (730141767497115000, [0x597379cb]);
  (734223966949140500, [0x7d507ed3]);
  (738479928391020100, [0x53f262806cb36e56]);
  (742925104648103500, [0x51445efa]);
  (747577106211592750, [0x5f316e146f0175c59102]);
  (752456122628536000, [0x4e92]);
  (757585452067291100, [0x4e0a504751e153f054085e725e79660e793e932f9519]);
  (762992174194318600, [0x529e545854e15b898fa6]);
  (768708015578313500, [0x596559678fde9023]);
  (774770477759956900, [0x590466966b65758f8655901a]);
  (781224329873714000, [0x4f2a507d5192552e574f58de5b50673a6a5f975e]);
  (788123617022409200, [0x4f4f51745c405e085e2b804c807782089053]);
  (795534414237781400, [0x4f244f9b50b7592e704c7236770178387fa48ca18d22]);
  (803538685005135100, [0x519b53d65ba25fc3636263db6f0f88638cbf8d388db38ecd]);
  (812239822704098000, [0x4ecb4fee514d53cd56e2571857fa5b815be75f395f48679c6e246e2f90ae90f59bae9c9c]);
  (821770840684530600, [0x4fc35e745e9c66258cc78d44]);
  (832306892250313100, [0x4f86514951b3534f53545c115de1653967656c7a6c926ca16d4e6dee6fdf822a8aa08bda]);
  (844085195815951500, [0x4f4d535555ae589e621862306587667a72697528804b807e88c1900396329645969b]);
  (857438335078403700, [0x4e8b4e9a4e9e4fe152a152d953cc53e35e028cac8d2396d998a898ce]);
  (872853403061129600, [0x5e3863a56d3d76f47cae7ce789819867987e]);
  (891085558740525000, [0x4e26505c521b527552a0534a53e454c15e735e76603b6c5f7e3d88ab8abf8c0391ca91cb943594c1]);
  (913399913871946000, [0x4f18512a53705bb95e2e5e6b655165e768486e7f6fd57ca47cb5820a899689c68ca78d2b8fb9908a964d]);
  (942168121117124200, [0x52385b9d5bf65c975d175e5565e567436b0a6b666c3479817a767cbe800384dd85cd8a188b1b8bb08bb28f498f6c914d; 0x958995ed]);
  (982714631927940600, [0x4e034e0d4e59533b5341536b53785e7c65fa68076a196e296e906eab6ee6706470ed71b17d717edf816d827a85dd885b; 0x91ab96be96e397699ec39ec4]);
  (1052029349983935100, [0x4e1c4e504eac4f114f534ff1513f5152516b517b517c521d523052a9537153ef53f856ed5712573a58345b985be15e7f; 0x5ee3607660c560e162d063d0653e677168386a026b8b6b986c616cb96cbb6e38706b70df7159725b79bb7ae37bee7c43; 0x7f8a80c681bd83498463866b87f2884c8a138a558ac78bad8bc48c088ced8d4c904a90e896359663969c96e297079810; 0x9884990a9ad4])
].
(** prob_emit.go:61812-61815 probEmit, state 318 *)
Definition emit_318 : list (Z * list Z) := [
  (40546510810816444, [0x4e2d]);
  (109861228866810980, [0x92b79500])
].
(** prob_emit.go:61816-61816 probEmit, state 319 *)
Definition emit_319 : list (Z * list Z) := [].
(** prob_emit.go:61817-64438 probEmit, state 320 *)
Definition emit_320 : list (Z * list Z) := [
  (301978163231482140, [0x4e0d]);
  (399443090214181900, [0x8cc78d44]);
  (423645707653245900, [0x56fd570b]);
  (435206773825305600, [0x4e00]);
  (438107192500434800, [0x5b9e5be6]);
  (449384132618044150, [0x4f599918]);
  (456479306215272550, [0x4e4b]);
  (459320406398550600, [0x4ef750f9]);
  (463626499436918100, [0x5982]);
  (464837259592666100, [0x52a852d5]);
  (465256867303511200, [0x4ea77522]);
  (476150335639878000, [0x60f3]);
  (483351502906225700, [0x6210]);
  (484503323979412050, [0x4e2d]);
  (490617931357636800, [0x4f5c]);
  (491210818469864650, [0x5e74]);
  (491857104587153150, [0x53ef]);
  (492658310675822900, [0x4eba]);
  (493668930697307600, [0x7136]);
  (497341440644232800, [0x53d88b8a]);
  (498560644720769000, [0x4ee5]);
  (499041800420491200, [0x65e07121]);
  (499256392777518900, [0x6709]);
  (500336316879694900, [0x5927]);
  (502476316240888400, [0x8fbe9054]);
  (508006365756057700, [0x800c]);
  (508241107647888150, [0x6c11]);
  (512440885008814900, [0x5de5]);
  (513984601987468800, [0x90e8]);
  (516059495663485200, [0x751f]);
  (517983865502747950, [0x5c55]);
  (518764103531166400, [0x5b665b78]);
  (521745443915204500, [0x662f]);
  (522352528410405400, [0x4f1a6703]);
  (525724020768233300, [0x5c31]);
  (527346631324159100, [0x8ca88d27]);
  (527988802635523950, [0x4e3a70ba]);
  (531485152940444500, [0x65f66642]);
  (531633520920183700, [0x4e0b]);
  (536034838267301300, [0x81a8]);
  (536657408371546650, [0x79d1]);
  (537756320529106200, [0x517395dc]);
  (541127426263337300, [0x5404]);
  (542029441399275800, [0x4ec0]);
  (543523245110162400, [0x65b9]);
  (546838465841852450, [0x5230]);
  (546924933637987800, [0x5206]);
  (550895459597257100, [0x5916]);
  (552163592533697050, [0x8d77]);
  (555406118381031700, [0x5b9a]);
  (555594619850608850, [0x5408]);
  (557499439347678300, [0x6240]);
  (558271643957069300, [0x5efa]);
  (558368590159524100, [0x5316]);
  (558659993959709040, [0x6cd5]);
  (559834175747377400, [0x6027]);
  (561421510663006400, [0x653f]);
  (562023317895562700, [0x6559]);
  (562123972156702840, [0x7684]);
  (563850779919910800, [0x52b352de]);
  (564777189015890600, [0x7d937ecf]);
  (565712260764134000, [0x5c0f]);
  (566025904513147100, [0x671f]);
  (566340535082083550, [0x529b]);
  (568035490913460900, [0x4e92]);
  (571403544191227500, [0x8cac8d239650]);
  (572068735114058050, [0x8fd0904b]);
  (574889000995666500, [0x5f97]);
  (575118096170322200, [0x4e0a]);
  (575577867095185100, [0x5b50]);
  (577086891667544060, [0x5bb9]);
  (577673403612783900, [0x6c146c23]);
  (578737872563925300, [0x7cfb]);
  (580054468482155700, [0x5229]);
  (580658699927752000, [0x5bf95c0d]);
  (580779985570272900, [0x8ad68bba]);
  (581266604535390200, [0x6cbb]);
  (581633129075219800, [0x5934982d]);
  (582247004545052250, [0x88c588dd]);
  (582493613794571600, [0x6b64]);
  (584362827095786900, [0x7406]);
  (586524386143380900, [0x79cd7a2e]);
  (587039851202247400, [0x610f]);
  (589525263636317650, [0x4e8e658765bc]);
  (590456740763772400, [0x98a898ce]);
  (591127434089444200, [0x68376a23]);
  (592618987165088900, [0x753596fb]);
  (592755692586242200, [0x673a6a5f]);
  (593029665360354300, [0x8fc7904e]);
  (594133124832725200, [0x754c]);
  (595248896519790500, [0x8def]);
  (595670541557684000, [0x8981]);
  (595952629191848100, [0x5929]);
  (598383056184453100, [0x6d4e6fdf]);
  (598527878802089600, [0x690d]);
  (601469267322718900, [0x672c8a00]);
  (602973055059172900, [0x4e1a696d]);
  (603886303415500250, [0x58f08072]);
  (604807968925992600, [0x516c]);
  (605738208192224000, [0x82b1]);
  (606050220925848300, [0x7b49]);
  (606677182227207900, [0x7bc7]);
  (608262001451210200, [0x793e]);
  (609710136170681300, [0x590d]);
  (610197545746505800, [0x898f89c4]);
  (610687342644060600, [0x7ba19636968e]);
  (611179550364603400, [0x773c]);
  (611344159455270300, [0x827a85dd]);
  (611674192758135950, [0x5e015e63]);
  (612171294030338000, [0x5bb6]);
  (612670878749675200, [0x91cd]);
  (612837963166156900, [0x4f539ad4]);
  (613005327221959900, [0x8a718bdd]);
  (614184784871243600, [0x53e4958095e8]);
  (614354420196061400, [0x65e5]);
  (615206940278397400, [0x5fc3]);
  (618691613411414200, [0x907f]);
  (619046853571851000, [0x591a]);
  (621023557645928650, [0x6b66]);
  (621387194410267000, [0x8cbf8d38]);
  (622670438417255500, [0x72b672c0]);
  (622855110676571900, [0x5b57]);
  (623040124605388100, [0x5f62]);
  (623411182545041700, [0x4e8b]);
  (625666917287449100, [0x540c]);
  (626814157403672740, [0x5728]);
  (627199514335271800, [0x4f866765]);
  (627780348494846500, [0x9ad8]);
  (627974712015703600, [0x53d1767c]);
  (628560079540849600, [0x5730]);
  (629148893803371900, [0x53cd]);
  (630936428986068250, [0x6d41]);
  (631539445888727350, [0x77408457]);
  (631741262304351100, [0x690e]);
  (632756499450752850, [0x795e]);
  (633165497975905400, [0x4e09]);
  (635026978820128550, [0x76f8]);
  (635655253138078100, [0x73af74b0]);
  (635865558157756000, [0x4eca]);
  (637136761716592100, [0x54c8]);
  (637993298002484450, [0x7d1a7ea7]);
  (639292017555165600, [0x5236540e5f8c]);
  (640607826012916700, [0x56de]);
  (641272280284783600, [0x98df]);
  (641717715319721550, [0x7e967ea496be96e3]);
  (641941179099863200, [0x5c71]);
  (642614582317997600, [0x5f92]);
  (643066050353450300, [0x6b65]);
  (645123265760971100, [0x706b]);
  (645354479736809100, [0x901a]);
  (645818517692459300, [0x6c34]);
  (646753103934283050, [0x80fd]);
  (647933755192981900, [0x7591]);
  (649610441178688600, [0x8eab]);
  (650094703626267500, [0x5177]);
  (651070321120803900, [0x6bd4]);
  (651315720016960600, [0x63fd652c]);
  (651808331850566200, [0x9762]);
  (653300896872233800, [0x5f00958b]);
  (653551838032776300, [0x4f5565706578]);
  (656096504598892800, [0x4e8c]);
  (657132783302447400, [0x822c]);
  (657393539643155500, [0x7269]);
  (658707618999261300, [0x540d]);
  (658972519816419040, [0x9053]);
  (660039196596838500, [0x884c]);
  (661388744744327000, [0x54c1]);
  (663864799712392200, [0x65979b25]);
  (664143739921150100, [0x9020]);
  (664423460383256200, [0x5f027570]);
  (664703965476017100, [0x8001]);
  (664985259613678500, [0x59885abd]);
  (665833921001410400, [0x7528]);
  (668423993844626100, [0x707d707e]);
  (669302476800199400, [0x6d3b]);
  (671985201023513800, [0x76ae]);
  (672287773115167500, [0x4e3b51718aaa8bf4]);
  (672591263484682900, [0x7d057ea2]);
  (674431806238954400, [0x6d0b]);
  (675052926248218500, [0x6e05]);
  (675364938981842800, [0x62186230]);
  (676939774678656800, [0x6ee16eff]);
  (677896719780271900, [0x5176]);
  (678539808813300900, [0x6599]);
  (678862910871445550, [0x96c4]);
  (679187060263862600, [0x516b]);
  (679838528365982000, [0x67436b0a]);
  (680494268420597950, [0x611f]);
  (681154336823733200, [0x624b]);
  (681486012086332500, [0x7d277dca]);
  (682823824680950150, [0x86cb]);
  (683499502927238100, [0x7a7a]);
  (685208946263168100, [0x52a152d9]);
  (685900990547625500, [0x81ea]);
  (686597857479234800, [0x7279]);
  (686948120534355100, [0x8fdb903298189886]);
  (687299614745099500, [0x5fc5]);
  (688006331467408750, [0x767e]);
  (689075860379083500, [0x4e86]);
  (689434927192156350, [0x5f537576]);
  (690519928794563000, [0x9769]);
  (692354842661382600, [0x5f0f]);
  (692725900601036200, [0x975e]);
  (693098340510134400, [0x4e075341842c]);
  (693472172721195200, [0x77e5]);
  (693847407683050200, [0x959395f4]);
  (694602128246588450, [0x57fa771f]);
  (695362588185110400, [0x6211636263db]);
  (697289430071698100, [0x8cbb8d39]);
  (697679294113263800, [0x53f2]);
  (698070684045377500, [0x524d5ffd81118166]);
  (698463611859366400, [0x519b65398ecd]);
  (698858089688468100, [0x4efd]);
  (700451748914749300, [0x672a]);
  (700854163944721900, [0x4f1752125283773e]);
  (701258204898422400, [0x600e8272]);
  (702071217506747400, [0x5371]);
  (702890894227165200, [0x513f5152]);
  (703303265945551500, [0x571f]);
  (703717345212154600, [0x5f375f3a]);
  (704550683368069000, [0x503c]);
  (704969971194072600, [0x67a26a1e8b588bc6]);
  (705391024447707000, [0x4e505b586a02767d]);
  (706238487146804150, [0x60c5]);
  (706664927025450000, [0x6253]);
  (707093193204650000, [0x53c8]);
  (707523301394589050, [0x81f3]);
  (708389107668900600, [0x534a7d507ed3]);
  (709702036813079800, [0x63076c926ca1]);
  (710586998340778000, [0x4e16]);
  (711032433375716100, [0x7da27ef8]);
  (711479861415208250, [0x4ec550c5]);
  (711929300373992100, [0x5165]);
  (712834283925983900, [0x51fa]);
  (713289865579570000, [0x5e7372b97336]);
  (714207303207174200, [0x4e4e]);
  (715133235748453800, [0x6f14]);
  (716067821990277600, [0x5317]);
  (716538411094018800, [0x4fdd]);
  (717486285489473200, [0x898b89c1]);
  (718443230591088260, [0x597d6761689d96b696b8]);
  (718925159234683200, [0x6015]);
  (719896040647379300, [0x5df276ee]);
  (720385039176798400, [0x4ee35b99]);
  (720876440657041300, [0x91d1]);
  (721370268821099600, [0x88e191cc]);
  (721866547755312600, [0x5357]);
  (722866556088770800, [0x89e3]);
  (723370335491766500, [0x4e457dad7ef4]);
  (724385572638168400, [0x5143]);
  (725928019670731600, [0x7d447ec4]);
  (726447501358441900, [0x897f]);
  (726969695756557100, [0x56db5e027f8e843d]);
  (727494631345171400, [0x4ef680bf816b]);
  (728552842278225200, [0x5931]);
  (729086176875761450, [0x8108810996359663]);
  (729622371189900000, [0x59048655]);
  (730703462800321550, [0x52dd644664fa80dc886588dc]);
  (731796369853540500, [0x547c5e2d8ff7]);
  (732347335434637500, [0x51495c425c64670d]);
  (732901353472199100, [0x6bb5]);
  (733458457977144550, [0x4fe1]);
  (734582065303837200, [0x5411]);
  (735718441168868700, [0x59cb77ff7926]);
  (737447590879874800, [0x5668628a660e7c7b90099078985e]);
  (738617194856193900, [0x5c3d76e1]);
  (739800640620894200, [0x6025]);
  (740397657319544600, [0x7530]);
  (740998259725565800, [0x53c253c3]);
  (741602491171162000, [0x5e725e797d717edf]);
  (742210395778800300, [0x656270ed71b1817a]);
  (744056602062773800, [0x8abf8c03]);
  (744679657037837400, [0x53e38f098f7d959295f2]);
  (745306618339197000, [0x8005]);
  (745937535258523400, [0x4e8f61088667]);
  (746572458026389300, [0x6df1]);
  (747854526869295460, [0x6a216bd2]);
  (748501778319857200, [0x573a5834]);
  (749153246421976500, [0x5e9461c96728]);
  (751133509151594500, [0x5438]);
  (751802407966674200, [0x7b11]);
  (752475811184808600, [0x59d45f85738b]);
  (753153779883346400, [0x517b5dee990a]);
  (753836376390386500, [0x4f9b]);
  (754523664319162600, [0x51b36c7a]);
  (755215708603620100, [0x53436b4c8a8d8ba4]);
  (755912575535229350, [0x7d307ec6]);
  (756614332801094050, [0x66b46cea6dda]);
  (757321049523403300, [0x5403]);
  (758032796300289700, [0x554f95ee]);
  (758749645248150900, [0x4f6350ad]);
  (759471670045499600, [0x7531]);
  (760198945978407600, [0x65ad65b76e3880a081788ca08d1f904a]);
  (760931549987614900, [0x5b8c601d6c7d]);
  (761669560717377200, [0x8db3]);
  (762413058566128900, [0x81f498db98de]);
  (763162125739044700, [0x4e714e824f8b547d6001614b]);
  (764677306241104900, [0x5546786c7de07f14]);
  (765443593515661800, [0x4e1351c65c086e96]);
  (766215798125052850, [0x6fc08b498bc1]);
  (766994012169258350, [0x6b32]);
  (768568847866072300, [0x544a5c118054806f]);
  (769365664830990000, [0x6b7b7d557edd9014]);
  (770168882000716400, [0x5f157bc08282961f968a97f6]);
  (770978603023978300, [0x51b7]);
  (771794934087894500, [0x62c96781683969757f6e7fa4]);
  (772617984001546000, [0x70df715973ed76c876db97f3]);
  (773447864283015500, [0x653693109525]);
  (774284689250067200, [0x4e89660c6d77722d8499]);
  (775128576114653600, [0x4f4d5747]);
  (775979645081444500, [0x826f8af88bf89633967d]);
  (776838019450583600, [0x51fb64ca]);
  (777703825724895100, [0x5e8f9694]);
  (778577193721770600, [0x5eb86557672f88538d25]);
  (779458256689986050, [0x4e2a500b8f498f6c]);
  (780347151431710600, [0x6c5f]);
  (781244018429986650, [0x5973]);
  (782149001981978500, [0x68116a397d007eaa]);
  (783062250338305700, [0x4fbf7ae08089]);
  (783983915848798100, [0x517458ee58ef65cf7b2c820889c089c2]);
  (784914155115029500, [0x4f0183ab88408dc38e8d]);
  (785853129150013350, [0x70b8]);
  (786801003545467700, [0x91cf9632]);
  (787757948647082800, [0x4e245169]);
  (788724139738256550, [0x4ff151686d6a]);
  (789699757232793000, [0x4ee44f2050b353bb9645969b]);
  (790684986877094200, [0x4ece5f9e621672ec736880b2]);
  (791680019962410950, [0x60ca6746687f9a5a]);
  (792685053547761100, [0x5c1a7537770b7840790e]);
  (793700290694162900, [0x529f6e296eab77db89d2]);
  (794725940710881850, [0x591c6ce88fde9023]);
  (795762219414436400, [0x4eb26cb9731b89aa9577957f]);
  (796809349401166000, [0x885793969501]);
  (797867560334219700, [0x4e1c66136771903b908f]);
  (798937089245894500, [0x5bfb5c0b7dda7ebf80e1]);
  (800018180856316000, [0x6548]);
  (801111087909535200, [0x4f1e50986551]);
  (802216071528193600, [0x67906c886c89751a77a977da]);
  (803333401588006200, [0x5b9c62c564d4670b67507a007cca9b3c]);
  (804463357113399400, [0x958395ea9ece]);
  (805606226695761800, [0x5c5e5c6c943594c1]);
  (806762308935869400, [0x53d682e690599065]);
  (807931912912188500, [0x4ea456e2571863d0804c8077]);
  (809115358676888800, [0x50da57505e38755978c179ef7a4d7e8c7eed80158d70]);
  (810312977781560300, [0x4e2752a055aa5c048cde8d4f]);
  (811525113834794700, [0x63a568b09ebb]);
  (812752123093976300, [0x68386e7f6fd5725980a9968f96a8]);
  (813994375093832000, [0x523b526752875355559c55ae8fd8908499ac9a6c]);
  (815252253314517900, [0x65b0751879df]);
  (816526155892260900, [0x504758f36bbc7dbf7ef59752]);
  (817816496375851700, [0x5377620c65c173cd]);
  (819123704532587000, [0x520777f379817e317eb5]);
  (820448227207589100, [0x5fcd7d2f]);
  (821790529240803000, [0x5f6980c681bd89ba89c98dcc]);
  (823151094446381000, [0x51a552bf52c352e25584590f5b98600061f7]);
  (824530426659614500, [0x5feb60eb618a8a188bb09aa8]);
  (825929050857088500, [0x5a01681668f27b797c4c8fd990199ec39ec4]);
  (827347514356284100, [0x4e944ed88fd1]);
  (828786388101494000, [0x4e3e53055e7f5ee35f7165e980a582098a9e8bed]);
  (830246268043609300, [0x52a3653e8a088ba1]);
  (831727776622123500, [0x5012505a54689031]);
  (833231564358577600, [0x4e915e265e3661c2865a865b96f2]);
  (834758311571656400, [0x4f1f504958025bcc9867987e]);
  (836308730225252900, [0x526f5f3163887483816e9ed8]);
  (837883565922066800, [0x521952477792779e]);
  (839483600056710900, [0x4e705099529e54bd559d590770708cb78ef88f748fa6]);
  (841109652143888900, [0x5b896a2a6a6b6c496f22815083498a348bc98ca78d2b96e8]);
  (842762582339010000, [0x4f4f6b626d8876d876e488708ca18d228ffd]);
  (844443294170648000, [0x4f60545c55da578b66966b677709]);
  (846152737506578100, [0x5065514851fd66f28f158f7b]);
  (847891911777765000, [0x4fed5109601265e76b21793c79ae809a80c08139820a8b5c8c318c618f9e8fad8fb9908a]);
  (849661869487705200, [0x5c0170b973bb80a18cea8d289ede9f0e]);
  (851463720037973000, [0x517c583162a5661f7167]);
  (853298633904792700, [0x521b527553f956065ba25dfe6c4273b073fe75be76ca7ae5]);
  (855167847206007900, [0x5df4]);
  (857072666703077400, [0x4e2656fe57165b955de65e766ecb6f9c703e]);
  (859014475288787500, [0x5272532a532f663e6c478b008c0b986f]);
  (860994738018405500, [0x4ecb4f18512a5167518559ff6512652267406bba6d2a96f7981098849f8d9f99]);
  (863015008750157400, [0x57085f255f4c666f66706d016f54725b786e78ba]);
  (865076937470431000, [0x53d75de263a86dcb901f]);
  (867182278390214200, [0x5021514d5f7c5f845f91679c85d3861a8f298f88917095f99b27]);
  (869332898912310600, [0x519c57615922606f667a68a66b638ac78c088fb2947c9523]);
  (871530789584188200, [0x523a533b56fa570657136bcd76ea7834836191ab96649f4a9f50]);
  (873778075169394000, [0x4e5f5e3d6293660f679775997c9288c28a2a8bbf8fdc8fdf9047906090729732]);
  (876077026991864000, [0x4ea657f95b635ead604b60e062006297671d683c6d3c6eda6efe76f4793a7a0b7aaa89bd89c8]);
  (878430076732883300, [0x4e48518d52aa56e05b88639277ed7a3b820c83cc8f2f8f9196c09ebc]);
  (880839831890789200, [0x53f35751592b5939593e64cd66256c576f6e79c1813881c9]);
  (883309093149826400, [0x51e052005239524e552f58a85bfc5c0e5e7e6df56e0a76d079cb864e934b950597079e7d]);
  (885840873948255400, [0x4e0e4ed651ac51f85225522b593a596a5be160ac61c861f862a465fa66976cdb70c271c3721b76827d047ea682078b77; 0x8e668f2a8f6e9ed1]);
  (888438422588581600, [0x4f0f5c655e085e2b63897750775e8eb2]);
  (891105247296797600, [0x515c566a572359c6672b6d9b6fe47aef7de87e547ec77f167ffb805688688afe8bfa]);
  (893845144715609000, [0x4eec50115145517553cb5439582a5a185e8a5fd9602861686591674272fc79d87db27e2e7f297f5190bb913096cc96dc; 0x98ef996d]);
  (896662232412278600, [0x4f3c515a52a953cc585159545f205f35602a60a363116c796d366d9d6f87718f8c6a969096b196d9980598799ee8]);
  (899560986099603900, [0x4e6151e16162632f654c65756b226b616eb67387768676ce7f6a809d85848b6f8bd1910991ca91cb9f13]);
  (902546282414572000, [0x5df1627e62b5636e64da67b66bcf704c723679f07a31]);
  (905623448281247400, [0x4e73504f538b58d35e955e9f5ee2627c6d6e707572e075d57d22900f9748]);
  (908798318112705400, [0x4e144e1b53e25c145d075ea65f8062d6677f6cab723e8ce28cfc8d248d2d8e4a8f9f95e296fe9727]);
  (912077300395004500, [0x5192535654265d9961f56e9c7b4b8682879e8ce392d2950b984f989c]);
  (915467455562572700, [0x4f11606860d1616e6279671b67e56d456dfa7597764278e882e586518f468f98967698f2996e9f3b]);
  (918976587543699700, [0x514453705ba35ef6626f627f62a262e26436650f671769ae74ee751577ac79567b147b46805e83638c468c6b92b79500; 0x95fb9b5a9c7c]);
  (922613351960787200, [0x4e1d50cf516d537356f4570d5949641664476d69722c724772af7d72814a81d88e7f8ea58ecc8f68]);
  (926387384759072000, [0x536b53ca59475fd86d896df77fe982f1885b8b668dd18ddd8fd4]);
  (930309456074400000, [0x4efb4f2a4f5b507d51b5548c574f58de60946295635f640d68076a196cc16d3e6ee6706470ae79b97acb7d667ed98154; 0x842885a98cb48d35901099969cf49e23]);
  (934391655526425600, [0x4e324e344f4e4fd75782594b596e604660526251633a646964b265d76eaf81e8878d8845898691c1]);
  (938647616968305200, [0x4ebf5104542f548e5555555f56345ef763a26708673567d37ade7af6904d90ce]);
  (943092793225388500, [0x4f3050f5534f5354539f542c558a566c5c615c625ec97fa17fa8807d]);
  (947744794788877700, [0x4e5d5217556756165ad65bc65c455e7c5fae628078b090a398fd99719a459a71]);
  (952623811205821000, [0x4e4959485b595b5c5b6b5b705f795fad626e6478659c68486cb3718472f07319778e7b287f507f577f857fa98033846b; 0x88638ce68d4b8f4e8f7f932f944494f89519958995ed987098a6]);
  (957753140644576100, [0x503a50b553eb53f054355ac15cfb603b611b665366c96cfb700972317a9d7aa97e3d86c7886b88d5893489648ddf8e52; 0x8e639999]);
  (963159862771603600, [0x560056bc5bf85c815f2f5f4e5ff5607660e1614862d3642d654f6b726ce2753b756b7bad80388073821e8a668b1d8bd5; 0x8c2291ce96c696f6]);
  (968875704155598400, [0x4e11503e50be53ee54ed5bc55e195e7b62db678469cb6c38719f7248727a72a7732e737b74f677207978798d7d1b7dbd; 0x7eb77ef0817981808d8a8de18fa98faf8ff99006903e905091199178919c96349670]);
  (974938166337242000, [0x52ab5386539a5c945f52605062d46b776b786b8a6e216e566f8870e671697da07eff811a8173899689c68c8c8fed9001; 0x917791e39493964d]);
  (981392018450999000, [0x4e084f7f536153f754105458549b54e15631568056d15e036167624d62b962ff632164cb65cc683d699c6ec26f2b72f2; 0x733b7c737d427ec8801082cd84bc85cf865f8ab08c018cca8d3c900a905c90ae90f5984c9898]);
  (988291305599694200, [0x4e664ed3500951c0520a575b58c75a135a255c4162cd6302639b63d2655e66f869826de870c87322732b756576c67801; 0x78bc79687b97805a8aa48b1b8bb28bef8c938fce92ea92fc94a294fa96de97009e21]);
  (995702102815066500, [0x4ef04fb5516e533a53405473552e589e5c065c075c3a5e1d5e2e5e6b5f0360fa629862d263a3656c65a965ac68c46c60; 0x6daf6ea271df76877965817f8273827782df84258da38edf8f6f906e931a94ee96ea9806987a]);
  (1003706373582420100, [0x4e3051a454c05531589959bb5b5d5c166101620f6232626c63da68ee6b3e6d046d2572467b527de37f187f5a7f708b93; 0x8ba98c5091529189923494c395ca9614966996aa97389f529f7f]);
  (1012407511281383000, [0x4f9d54ac54b855f25f395f485f8b62ac62d0638c6a616b966d176dd8743474e275c5789779bb8116817081fe836f85e5; 0x871c88968ac48c068d8b8da88fa391d893189489952496e297f597fb]);
  (1021938529261815500, [0x4e014e434e954fee51c953c954ee6062679d68636a946c996dbc707f71e676d679fb7b3382de847a84cb8b708bae8cdc; 0x8d508eca8f148f668f858f9b99529976]);
  (1032474580827598100, [0x4ed9501f507f511f521a5238525b535c56f0577759765c3c5c975d175de762b164d2673d6751678968a26beb6cca6d1e; 0x6e106f3872c27435743675f48037806a8070808680cc845b888588ca899389c58a0a8a0e8a5e8a6b8a958af38ba88baf; 0x8bcd8bde8be78c198c9e8cfd8d1e8d5b8fc19077932294b1966298c498d8]);
  (1044252884393236500, [0x4e034e4c4ea150e751f95348536f53d9540a550757f7592a59995c0a5f556065606962636267626b62f3638364e66558; 0x65e666ff67aa69cd6c906df96f4b703270cf74a87ad67aff7bee7c437d617edc7f3a7f8a803b8106813e81fb82398270; 0x827182bd8ae78c108c4e8ca98d298df39022903c9304980198759a5f9aa4]);
  (1057606023655688800, [0x507751a051e4521d526952c753e5542b5875598759d15a325a665aa75bb35c185f1760dc612768fa6b6a6b8b6b986bdb; 0x6ca76dfb6ec4706f70db71c871ed7275727d745c788d79197a7f7a837aca7cbc7d0d7d207eb37fb98003808b808c818a; 0x81c6832b841d863f86fe87008aa08bda9171918b91ac91dd93e19488955c96c59cf3]);
  (1073021091638414500, [0x4eab4f73538c53a253ad554355bb59845bdf5ea75ec25fe06194626d632563a063ee640f652f65ce669166f468f16b3d; 0x6c646cfc6de16e146e6f6f016f516f66723d724c73e075db767b77797a9c7ac47c417c5f7c977e8f7f207fc1810f817e; 0x81df820d82dc868086e4875587c688618a698ad28bd78c058e2a8e879057907a93c894a694fe9802983b987698919913; 0x997f9a309b139b229d099d5d9e269e45]);
  (1091253247317810000, [0x514b51cc525d52655320537553e055b75674575a580558eb59445baa5bb45bbe5c245df75f9061b262cc635563776563; 0x657265746649664b680f684368f56b046dc670e771d2738974e67532758a75af75d2760b766278a779be7d197e617eb8; 0x7ee3801780c3819d81c282a582f98549860b87828acb8bf78cd38ce48d3190c19192919b935b953b961c9813987f98fe; 0x99709b319ce59e1f]);
  (1113567602449231000, [0x4e394ec14ed74eea4f0a4f884fa04fe04fef505c50765100515451bb51cd534e56175757576657a3584a58c1597859e6; 0x5b5a5b645b815b8f5bd25be75c1d5e905eec5fb76020606d60a060a861a7621262e562e764c164f0658b665a6734675f; 0x68cd6a386a906bc06bc16da16e266ec5706d70d8718a71ce7237723a728a72a272ac72d7732a76fc7701777f781678da; 0x798f7c377cb17e2b7f1d7fd87ff980f88352837783b183ef840a867d88b48c378c6c8eba900090ca9418949f96d69839; 0x989398e299659f4b]);
  (1142335809694409000, [0x4ea54f38514751b051b651ed51f65251528d53825406541b55245587559a59565c405c4f5ee0601c60f9619061916208; 0x623f63016390653b654565a465bd6655668866f3676f68816b896c306ce56cf06d4b6da86de46e2c6ef46f326f62734e; 0x783878d57a767ca5803f80da8155817b818f81a981ed836b844684718525852d853d854a86508702891289e689f88cab; 0x8cbc8cc08cfa8d2f8d348d3a8d5a8d748fe2916c92b3951096469678971e992899869a379a9a9da99e5c]);
  (1182882320505225600, [0x4e3d4e884f24500d508550b7520152425256529152e453475409542054c954d1555e557c57ce5835591f59205986599d; 0x5bbd5bec5c465c4a5c795ce65dd25e0c5e555fe760b2613f614c6182634f643a64876500651c653865f166a268af697c; 0x6a136d126d536ee56fc36feb7051708e70f9712672de7370748074dc7545775b780d7a777aae7cae7ce77db17df47e69; 0x7eb27ec37ef37fe0800d80f681a08302834f83dc85e486ee883b8a2d8a3a8bbe8bca8d058d588dec8ef28f038f5f8f70; 0x8f718f838fab8fae8fb0925b9274945194c598089858987b98c698d99d519db49e439e649e97]);
  (1252197038561220100, [0x4e254e584eae4f3651ff52ff5351535a537f53f6543e549554e95618565356b45824585458fd5a115ab35bff5ce15cfd; 0x5e3c5e455e575e785f045f1f5f2760ef616362346276629162a06309632a63a1641c647364bc655d65a565af65f76606; 0x662d668766e066f967d467f368d86bc56c5d6c706ca66d516d786dc06dea6e3e6ed16ed46f8e710a714e7194730e7334; 0x737574e375867768788c7a337a3c7a697b267b807bc47c217c897d1c7dd27e377e417e5e7ead7ed57eea7f157ffc80ba; 0x812b8131820682a682b38303830e8336839683e9844984ec85aa8606866b8681869586d9870987f287fb88368a938cf4; 0x8d568d648f3b8f3f8f908fc89042908190a6914d91c7921e92649280947f94a794a994f6960b9759975c984d989d9a01; 0x9a8b9b299d3b9d609e3f9e44])
].
(** prob_emit.go:64439-64441 probEmit, state 321 *)
Definition emit_321 : list (Z * list Z) := [
  (69314718055994530, [0x653f6c11])
].
(** prob_emit.go:64442-64680 probEmit, state 322 *)
Definition emit_322 : list (Z * list Z) := [
  (200871015852364800, [0x5341]);
  (233220168367214000, [0x4e00]);
  (266596924788622600, [0x4e8c]);
  (302743437072310700, [0x4e09]);
  (311138668930318470, [0x591a]);
  (311735102949127200, [0x767e]);
  (321328137110153870, [0x90e8]);
  (336112689742382240, [0x5343]);
  (339313978411072540, [0x7f8e]);
  (345247546912142900, [0x4e2a500b]);
  (350300071431607800, [0x4e07842c]);
  (352974677736352050, [0x4e94]);
  (354547688066038940, [0x56db]);
  (369865451380194040, [0x65b9]);
  (380248170086512350, [0x516b]);
  (382938326844904900, [0x516d]);
  (393078601151482940, [0x516c]);
  (398990906252894300, [0x51e05e7e]);
  (404227145061883700, [0x4e03]);
  (410567695140530600, [0x4ebf5104]);
  (412813652431067500, [0x4e5d]);
  (418090950477109050, [0x7cfb]);
  (418627991729945300, [0x4f599918]);
  (435720013487975600, [0x4f1a6703]);
  (438578984652564200, [0x5e73]);
  (447978611803722250, [0x4e0b]);
  (465129127733764900, [0x5927]);
  (482607700344290100, [0x5206]);
  (487028309594739600, [0x4e245169]);
  (487342676405036400, [0x7acb]);
  (490932805555690900, [0x70b99ede]);
  (491719179201712300, [0x8f298f88]);
  (523334553855021600, [0x65706578]);
  (566858156525782400, [0x96359663]);
  (568262673996087200, [0x6e2f]);
  (571569948823489400, [0x534a]);
  (584008320792263000, [0x5e725e79]);
  (591393650033474800, [0x5de6]);
  (594287161119420100, [0x4e4b]);
  (607195680844652900, [0x96f6]);
  (618220048692942800, [0x82f1]);
  (632207898621362900, [0x5c11]);
  (632745534325001000, [0x4e9b]);
  (636033501736916600, [0x65e5]);
  (645369723496019200, [0x53f3]);
  (645983222352770700, [0x4eba]);
  (675059596251689600, [0x54689031]);
  (676301848251545400, [0x6574]);
  (680993540230320500, [0x8a318bb8]);
  (695539037516291000, [0x809a]);
  (696045367711945700, [0x5b50]);
  (705627160001669000, [0x6b21]);
  (719380139860790800, [0x91cf]);
  (723302211176118900, [0x74e6]);
  (723971109991198600, [0x53986b65]);
  (725322481907870800, [0x53cc96d9]);
  (731640372070024000, [0x6c0f]);
  (733838262741901600, [0x523b]);
  (746453391274591600, [0x5c425c64]);
  (750745895746294960, [0x77ac]);
  (754317704006502900, [0x4e45]);
  (755230952362830100, [0x6279]);
  (757082857139553860, [0x9996]);
  (758969705569992100, [0x7b2c]);
  (759926650671607200, [0x59296beb]);
  (766894642735406200, [0x513f51527247]);
  (775502103612530500, [0x8def]);
  (782481679806084700, [0x597d]);
  (793959231265327500, [0x51fa]);
  (802414970068133800, [0x6fb3]);
  (803896478646648000, [0x58f08072]);
  (827336549230532400, [0x5c0f]);
  (833163440042930000, [0x6cd5]);
  (841501600936835000, [0x99ac9a6c]);
  (845946777193918500, [0x5f8879cd7a2e]);
  (848245729016388200, [0x534e83ef]);
  (850598778757407600, [0x5149]);
  (853008533915313700, [0x4e16]);
  (858009575972779900, [0x4ee376ce]);
  (863273949321322000, [0x53e0758a]);
  (868830934436803100, [0x4e0a]);
  (871729688124128400, [0x4e0d]);
  (874714984439096500, [0x664c]);
  (877792150305772000, [0x6d77]);
  (880967020137229900, [0x5bf95c0d]);
  (891145289568224000, [0x6735]);
  (898556086783596300, [0x5934624b6444651d982d]);
  (902478158098924300, [0x5168]);
  (906560357550949900, [0x5ffd]);
  (910816318992829500, [0x4e017533]);
  (915261495249912800, [0x622a6ef4]);
  (919913496813402200, [0x52a0573a583459048655]);
  (929921842669100400, [0x4e1b53e27c07]);
  (935328564796128000, [0x5fae620c]);
  (941044406180122900, [0x5348]);
  (953560720475523600, [0x4f0d5e74628a67b6]);
  (960460007624218500, [0x53e568636a94]);
  (975875075606944400, [0x5bb65bc56210]);
  (984576213305907400, [0x670968376a237532756a9762]);
  (994107231286340000, [0x4e11661f8cab8d2f9149919c]);
  (1004643282852122600, [0x514b97d397e9]);
  (1016421586417760800, [0x4edf4f7062c9751f88e191cc]);
  (1029774725680213000, [0x4ea54fbf536f5428567862d6]);
  (1045189793662939000, [0x4f176bd4773e]);
  (1063421949342334500, [0x65ec65f666427d427dad7ec87ef4898b89c1]);
  (1085736304473755400, [0x4e1d5170535555ae5b975ea6676f7d447d727ec4862d8fb0]);
  (1114504511718933500, [0x5df35eff64ae672a76787d0d7d557eb37edd82e5959395f4]);
  (1155051022529749900, [0x4e614f0f500d53456302639b7bc7826f9109]);
  (1224365740585744400, [0x4fe95006515c521753c153f0575a580558f959575e025e9a634c65e067d271218cb38d308f1b8f86])
].
(** prob_emit.go:64681-64681 probEmit, state 323 *)
Definition emit_323 : list (Z * list Z) := [].
(** prob_emit.go:64682-64721 probEmit, state 324 *)
Definition emit_324 : list (Z * list Z) := [
  (20304430208332525, [0x5b63]);
  (272572784092029740, [0x65b9]);
  (310681338955131100, [0x90e8]);
  (402238183898164300, [0x5206]);
  (419966197350267000, [0x4e4b]);
  (487571472070331600, [0x9053]);
  (530259392331529700, [0x4e16]);
  (569515562658755300, [0x53e3]);
  (583973685539866100, [0x4ee3]);
  (593282727846467300, [0x4e07842c]);
  (598283769903933400, [0x523b]);
  (603548143252475600, [0x4e1d7d72]);
  (612003882055282000, [0x6708]);
  (624520196350682500, [0x70b99ede]);
  (675602758727281600, [0x4e5d]);
  (681318600111276500, [0x4e8c884c]);
  (693834914406677100, [0x5343]);
  (700734201555372200, [0x53416b21]);
  (716149269538098000, [0x4e09]);
  (724850407237061050, [0x4efd]);
  (744917476783276100, [0x9762]);
  (785463987594092600, [0x4e035e74]);
  (826010498404909000, [0x4e00]);
  (854778705650087100, [0x4e0b53d1767c]);
  (895325216460903500, [0x661f]);
  (964639934516898000, [0x4e0a51e05e7e68376a237248])
].
(** prob_emit.go:64722-68319 probEmit, state 325 *)
Definition emit_325 : list (Z * list Z) := [
  (375345303185039000, [0x4e1a696d]);
  (384322179168779300, [0x8cc78d44]);
  (394334185145627950, [0x4e3b]);
  (406257844561696800, [0x6c11]);
  (406896628449304000, [0x4ea77522]);
  (409519678568246900, [0x52a852d5]);
  (416855608972220300, [0x5b665b78]);
  (425245739606621200, [0x516c]);
  (470125364915512100, [0x7406]);
  (476694414405983900, [0x672c]);
  (476787183572045400, [0x884c]);
  (483802922063877900, [0x653f]);
  (486755373143288300, [0x9650]);
  (489364015986904550, [0x4eba]);
  (489586459443375950, [0x4e8b]);
  (491958487164413800, [0x6613]);
  (494992530429115600, [0x6d4e6fdf]);
  (498223687125464300, [0x56fd570b]);
  (500642169048364100, [0x751f]);
  (502932901455047200, [0x4f1a6703]);
  (503996669649626300, [0x4f5c]);
  (505442017963029000, [0x5408]);
  (506297195588584000, [0x5316]);
  (508227325437322700, [0x545854e1]);
  (509721270843618500, [0x7269]);
  (511631603901291700, [0x5229]);
  (511748562978951950, [0x91d1]);
  (515292182223647400, [0x5b50]);
  (518198514252077400, [0x7d937ecf]);
  (521530040632308200, [0x6cbb]);
  (522063806557890500, [0x7a76]);
  (524443503656055300, [0x52a152d9]);
  (525797926166831000, [0x6c34]);
  (530379405865620400, [0x5de5]);
  (531051380100643000, [0x5206]);
  (534922364396639000, [0x5bfc5c0e]);
  (535607108443451200, [0x7136]);
  (535774379182201500, [0x8cbb8d39]);
  (536296573580316700, [0x90e8]);
  (541437713345247300, [0x753596fb]);
  (544050285907311400, [0x5b9a]);
  (545967929329957500, [0x6709]);
  (552610080826559700, [0x4ea4]);
  (555536029365160700, [0x9577957f]);
  (558924621409922100, [0x53d1767c]);
  (559654122233019000, [0x4e6666f8]);
  (564517787915163300, [0x9636968e]);
  (569996166973930800, [0x592a]);
  (570732237594852900, [0x54689031]);
  (574249850900579400, [0x7528]);
  (575376700806976100, [0x76ca]);
  (576042260668149600, [0x5927]);
  (578264886978023500, [0x9020]);
  (578806893724957500, [0x80fd]);
  (579323097911077200, [0x7b97]);
  (581414981280236700, [0x76d876e4]);
  (581650137179312300, [0x62a48b77]);
  (587404070503859500, [0x53e3]);
  (587685013407548200, [0x6587]);
  (589419252047590400, [0x529b]);
  (591378524613885050, [0x8cac8d23]);
  (591866251153785400, [0x8868]);
  (596059877286361800, [0x76c8]);
  (600082611078052800, [0x673a6a5f]);
  (601149857067130000, [0x6790]);
  (601544052166361600, [0x5c04]);
  (601651830154161300, [0x5bb6]);
  (601795715071071150, [0x672f8853]);
  (602627095243798600, [0x51fb64ca]);
  (602954308769708500, [0x653e]);
  (604163336136606900, [0x54c1]);
  (607957218362867900, [0x6c146c23]);
  (608918949183897150, [0x767d]);
  (609461586174325600, [0x901a]);
  (609539346675911100, [0x6d41]);
  (610163617138719600, [0x4ee4]);
  (612740568456624800, [0x548c]);
  (614196904875414400, [0x4fdd]);
  (614933104519521300, [0x5bdf]);
  (615056333124147800, [0x4e0b]);
  (616547043959061600, [0x4e506a02]);
  (616923219951250800, [0x5e74]);
  (617090864583976000, [0x8272]);
  (619039253199298700, [0x534e83ef]);
  (619596835600354500, [0x51675185]);
  (619769026775056400, [0x65b9]);
  (620200806375062000, [0x7a7a]);
  (620677927210775950, [0x767e]);
  (622388120174703100, [0x53e4]);
  (622609506140705100, [0x5fc3]);
  (622875817882653500, [0x9762]);
  (623634242218484300, [0x8840]);
  (623768680957083600, [0x79ef7a4d]);
  (626357969376857150, [0x901f]);
  (626726803358841100, [0x6c27]);
  (626865467582584750, [0x8cea8d28]);
  (626958017334679000, [0x62c9]);
  (628215895555365000, [0x5e9461c9]);
  (628732935485107300, [0x9ad8]);
  (630491953979209900, [0x70ed71b1]);
  (630780138616698800, [0x514b]);
  (631989928353649700, [0x65706578]);
  (633609595662138000, [0x6b7b]);
  (633956560074649300, [0x5ff5]);
  (636216259538587500, [0x573a5834]);
  (636623384782865500, [0x8b498bc1]);
  (637083390705196300, [0x7ba1]);
  (637237197451744000, [0x7e547ec7]);
  (638268666111927200, [0x4e497fa9]);
  (638788417801730100, [0x899689c6]);
  (639415706842458100, [0x7e8c7eed]);
  (639678243091966500, [0x71df8425]);
  (639783450887046900, [0x52365357]);
  (640099740027897700, [0x6559]);
  (640152552281567800, [0x6280]);
  (640258260536654300, [0x8054806f]);
  (640311156597131250, [0x9178]);
  (640523021083159800, [0x59d4]);
  (641054654445883100, [0x878d]);
  (641321534775091100, [0x5238]);
  (641964968630355700, [0x9633967d]);
  (642072611267229500, [0x5c0f]);
  (642342225881887600, [0x82b1]);
  (642450275595263100, [0x5b57]);
  (642558442182337150, [0x6536]);
  (643318902120859100, [0x966996aa]);
  (644746713307287900, [0x80b2]);
  (644857394004807000, [0x89d2]);
  (644968197340243150, [0x8eca8f66]);
  (645023645082168300, [0x77ff7926]);
  (645079123585671800, [0x660e]);
  (645190173014074500, [0x5934982d]);
  (646139105616186000, [0x5929]);
  (646983943082741200, [0x7a0b]);
  (647153770465760400, [0x5e73]);
  (647380656552879500, [0x6210]);
  (649214518834171000, [0x5143754c]);
  (649562143749707100, [0x6cb97d307ec6]);
  (649852757148080000, [0x4e16]);
  (650027531442496000, [0x8a088ba1]);
  (650377999090940900, [0x958095e8]);
  (650553694597337600, [0x8a00]);
  (651023730715370800, [0x53f68449]);
  (651555175721720000, [0x6cd5]);
  (651851647922272900, [0x8def]);
  (652327839298297300, [0x7b517bc9]);
  (653226856441170600, [0x552e]);
  (653287079267441200, [0x4ee3]);
  (653528333907979600, [0x53f2]);
  (653588738621383800, [0x92b79500]);
  (653649179844136400, [0x540c]);
  (653891310713037500, [0x5b89]);
  (653951935146540200, [0x52a0]);
  (654073294384736050, [0x9053]);
  (654134029278798600, [0x52dd80dc]);
  (654804559069364700, [0x77f3]);
  (655911581444789400, [0x50995907]);
  (656968476579712850, [0x5e02]);
  (657030996119104700, [0x536b885b]);
  (658099852569740100, [0x65979b25]);
  (659756996928666300, [0x4e895bf95c0d722d]);
  (659885614309740800, [0x5730897f]);
  (660531194344027900, [0x4e00]);
  (660790597861732600, [0x8b708bae]);
  (660920552395941100, [0x8b588bc6]);
  (661311432372446450, [0x547d]);
  (662956747539850500, [0x65f66642]);
  (663289084170092000, [0x4ef750f9]);
  (663555750994783600, [0x4e2d]);
  (663823130833223800, [0x4f539ad4]);
  (664967539149362100, [0x62186230]);
  (665442599425221900, [0x5c71]);
  (666537001593153600, [0x6b66]);
  (666605801045471800, [0x8404]);
  (667019594739351700, [0x786e78ba]);
  (668271349609513350, [0x4f2050b3]);
  (669114643433432000, [0x99ac9a6c]);
  (669185239977133600, [0x5f97]);
  (669255886394766300, [0x6da66f64]);
  (669751813730701300, [0x7dda7ebf]);
  (669893960165439050, [0x6548]);
  (670607739070268300, [0x79d1]);
  (671038464790026400, [0x57fa]);
  (672926683562159300, [0x5ea6]);
  (673073418731554350, [0x56e257186027]);
  (673146867137353500, [0x6e38904a]);
  (673588694071119900, [0x601d632563ee]);
  (674701878108004400, [0x503c9a579a8c]);
  (675150644754943100, [0x636e64da]);
  (676205665844458450, [0x7403]);
  (677042490811510100, [0x5e03]);
  (677348535426820700, [0x67436b0a]);
  (677578685125648600, [0x624b79bb96e2]);
  (677655519551249500, [0x592e]);
  (678117769989136200, [0x54cd97ff]);
  (678195019896415500, [0x5b69]);
  (678349698968245400, [0x7070]);
  (678815176922743650, [0x5347]);
  (678970818977509400, [0x65b0]);
  (679048730940936450, [0x89e3]);
  (680145920631061300, [0x610f]);
  (681016523676461500, [0x7267]);
  (681334995283213500, [0x59cb]);
  (681494612236495700, [0x6750]);
  (681654484372865350, [0x603b7e3d]);
  (682216058251428950, [0x98a898ce]);
  (682377088882039400, [0x5168]);
  (682457701542591800, [0x68076a19]);
  (682699930163251300, [0x6301]);
  (682861742496292300, [0x515a9ee8]);
  (683348756445896600, [0x8a0a8baf]);
  (683511622931409000, [0x7d057ea2]);
  (683919953429346000, [0x5546]);
  (684329958103747300, [0x4efd]);
  (684906803543421400, [0x7565]);
  (684989482341020800, [0x827a85dd]);
  (685403904815623500, [0x8fd0904b]);
  (686657577733421800, [0x7acb]);
  (688183031042728400, [0x793e]);
  (688439551063682800, [0x88e191cc]);
  (688610930711456300, [0x5f15]);
  (688696730802519900, [0x53f8678469cb]);
  (689385794683132400, [0x795e]);
  (690253855689563000, [0x8db3]);
  (691217507474390400, [0x7531]);
  (691393718973730300, [0x7532]);
  (691481941299699400, [0x5c3f]);
  (691570241526187250, [0x959395f4]);
  (691747076231861400, [0x79df]);
  (691835610987533800, [0x606f78c1]);
  (692457558794235900, [0x67d3]);
  (692993753108374500, [0x513f5152]);
  (693622968667463400, [0x5411]);
  (693893849194272100, [0x5916]);
  (694165465477149800, [0x67816975]);
  (694437821523853850, [0x4efb]);
  (694528771962138000, [0x544a]);
  (694619805195552500, [0x96469678]);
  (694893403177439950, [0x671f]);
  (694984769104307400, [0x9645969b]);
  (695259368819193000, [0x8001]);
  (695995342702401000, [0x5149]);
  (696922993139430250, [0x6258]);
  (697109560357725200, [0x8f448f96]);
  (698047653541101700, [0x8f388f93]);
  (698330806160675600, [0x8ca88d27]);
  (698614762811483400, [0x5b9e5be6]);
  (699567150962608950, [0x5728]);
  (699758721902422800, [0x8f158f7b]);
  (699854645171168900, [0x65cf]);
  (699950660541003200, [0x8c61]);
  (700915919000804100, [0x5175]);
  (701890585586033500, [0x6d3b]);
  (702184847691453300, [0x7bc08282]);
  (702381504588657400, [0x97f3]);
  (703072865367139150, [0x517395dc9769]);
  (703569637377332700, [0x4f195925]);
  (704973873089636500, [0x6b96]);
  (705785236567053500, [0x5f71]);
  (706398108761190800, [0x5efa]);
  (707324517857170700, [0x963299db9a76]);
  (708155259914156200, [0x8b008c0b]);
  (708364028257204700, [0x5c55]);
  (708468576097359900, [0x539f]);
  (708573233354427100, [0x529f]);
  (709520110497312200, [0x7d717edf]);
  (709625874653125800, [0x677f]);
  (711011085933940900, [0x6d0b]);
  (711333493521116200, [0x4f4d]);
  (712089845046840700, [0x4e0a]);
  (712307000398191500, [0x8981]);
  (712415755166931400, [0x5217]);
  (712524628340451000, [0x6307]);
  (713290077676504300, [0x8fdb9032]);
  (713840436798202100, [0x706b]);
  (715847193103283100, [0x5170862d]);
  (716072672341992000, [0x5c14723e]);
  (718587090522094500, [0x63d06676]);
  (718934916959726960, [0x958995ed]);
  (719634220508824000, [0x80de]);
  (719751248023643100, [0x6d32]);
  (720220732454063800, [0x690d]);
  (720574297937294600, [0x540d]);
  (720692431441877700, [0x5df4]);
  (721285201405205300, [0x5bc6]);
  (721523296755779400, [0x5171]);
  (722241003185815800, [0x943594c1]);
  (722361123320379200, [0x96c6]);
  (722481387916955200, [0x534a]);
  (723327314411552900, [0x73ed]);
  (723935959017193100, [0x5317]);
  (724671256447719000, [0x76d684cb88c588dd]);
  (724917561990958800, [0x7b49]);
  (725412000575505200, [0x53cd]);
  (725535993151837200, [0x583162a5]);
  (726033506615848600, [0x538b58d3]);
  (726283194635707400, [0x6d4b6e2c]);
  (726533507657519200, [0x8ad68bba91cf]);
  (727288228221057500, [0x8f498f6c]);
  (727414570625734700, [0x7b7e7c3d]);
  (727541072856393400, [0x517b990a]);
  (727667735317912600, [0x91cd]);
  (727921542560759800, [0x7279]);
  (728814975434136300, [0x4e096797]);
  (729200332365735400, [0x7a057a0e822a]);
  (729329115384178200, [0x7b797c4c]);
  (729458064467165400, [0x6bb5]);
  (729587180043527400, [0x7834]);
  (729716462543757900, [0x9ec39ec4]);
  (730105315917727100, [0x7d1a7ea7]);
  (730235270451935700, [0x89bd89c8]);
  (730495687265774500, [0x76ae]);
  (731149711833835400, [0x8a188bb0]);
  (731940229784546800, [0x51dd]);
  (733271807382124000, [0x6599]);
  (733809443085762100, [0x65af]);
  (734893464541048500, [0x9aa8]);
  (735303021427522200, [0x5e265e36738b80a18863]);
  (735439913988256400, [0x72b672c0]);
  (735714262582831500, [0x7248]);
  (736127201917032600, [0x5c975d175e38]);
  (736265228163928400, [0x6b65]);
  (736680453674005200, [0x5668666f75c5]);
  (736958231630395400, [0x6e90]);
  (737097410497677600, [0x85cf]);
  (737656071168541700, [0x7684]);
  (737796225361070500, [0x96b696b8]);
  (737936576261302500, [0x7cae7ce7]);
  (738358814749287350, [0x6bcd]);
  (738641300812842800, [0x4e8c7d007eaa]);
  (738924587121273200, [0x5bb97da07eff]);
  (739066531786695900, [0x4fe1]);
  (740209401369058100, [0x4e4b]);
  (740497171351819600, [0x5e1d]);
  (740930385025733100, [0x4eac]);
  (742388136787548800, [0x8a718bdd]);
  (742535087585484800, [0x623f]);
  (742682254646630500, [0x7d047ea6]);
  (742977240111272600, [0x4f01]);
  (743125059798203700, [0x52675287]);
  (743421356311269400, [0x793a]);
  (743569834438027300, [0x53c9]);
  (743867453705331900, [0x70b8]);
  (744315550048835500, [0x7d447ec4]);
  (744615400348461200, [0x8f2a8f6e]);
  (744765663336914700, [0x5e9c]);
  (745066868383913850, [0x51fa836f85e5]);
  (745672013952249400, [0x4e60533a53407b567fd2]);
  (745823874269968400, [0x7b2c]);
  (748285537033504000, [0x7956]);
  (748441421710433100, [0x76df]);
  (748910539068021100, [0x7bc48303]);
  (749697325188082400, [0x66f2]);
  (750331241732456000, [0x57065713]);
  (750809330292490300, [0x7763]);
  (751611259209152200, [0x805e95fb]);
  (752257465011961300, [0x6761689d]);
  (752419671049148100, [0x627f]);
  (752907873808878900, [0x5747]);
  (753234671485340500, [0x96e8]);
  (753398471685764400, [0x5bb3]);
  (754221521599415900, [0x4f2f]);
  (755051401880885500, [0x4e0d7bad]);
  (755385292007436900, [0x7cfb]);
  (755552656063239900, [0x60c5]);
  (755888226847937100, [0x519b519c60f36d777c7b8ecd8fb2985e]);
  (756224927502727500, [0x773c]);
  (756393703914099550, [0x8fdc9060]);
  (756901749037341400, [0x65e58a9e8bed]);
  (757071672612637400, [0x898b89c1]);
  (757241885419690400, [0x613f9858]);
  (757754269119677400, [0x6b3e]);
  (758441557048453600, [0x50cf5cb8]);
  (758786980535262300, [0x5e725e79]);
  (759133601332910950, [0x4e73]);
  (759481427770543400, [0x611f]);
  (759655795731026100, [0x4ed3500958eb]);
  (760005446436899050, [0x4f866765]);
  (760180731319640500, [0x4e1c5c3c6771]);
  (760708437029724800, [0x6fc0]);
  (760884959582181800, [0x7259]);
  (761061794287856000, [0x670b6bdb]);
  (761238942252694200, [0x7d507ed3]);
  (761416404588531000, [0x62366237]);
  (761594182413131000, [0x6001614b]);
  (762129420086990200, [0x7d0b7eb9]);
  (762847556027856650, [0x7d217eba]);
  (763027898727771700, [0x571f]);
  (763389562774790500, [0x593a596a9b6f9c81]);
  (763570886487208600, [0x89c089c2]);
  (763752539579848400, [0x529e56db8fa6]);
  (764299487160302000, [0x4f4e]);
  (764665787936175700, [0x6cb3]);
  (764849442716905800, [0x5c5e5c6c]);
  (765033435409106500, [0x53f05f62]);
  (765217767258535450, [0x74837f577f85]);
  (765772810311600300, [0x4e1d7d72]);
  (765958511386321650, [0x5f395f48]);
  (766330951295419900, [0x67e5]);
  (766704783506480600, [0x75be]);
  (766892224985915600, [0x57ce]);
  (767268165278306200, [0x5c1173b073fe]);
  (767645524216670200, [0x53ef]);
  (767834739031874000, [0x683c]);
  (768977608614236200, [0x5c3e]);
  (769361486244952800, [0x7dad7ef4]);
  (769746843176551700, [0x4e9a4e9e86cb8cfc8d2d969c]);
  (769940079951657200, [0x532f6c47]);
  (770133690854343800, [0x56fa]);
  (770327677336126500, [0x7c73]);
  (770522040856983550, [0x6ecb]);
  (770716782885423200, [0x4f595165679c9918]);
  (770911904898549300, [0x961f968a]);
  (771107408382129660, [0x6f5b6f5c]);
  (771499565747447800, [0x53059f8d9f99]);
  (771893267043381750, [0x8910]);
  (772090700473753500, [0x5438578b]);
  (772486740595363200, [0x661f]);
  (772884355433327100, [0x75ab]);
  (773083757294013600, [0x79818349]);
  (773283557560280900, [0x90099078]);
  (773885364792837200, [0x7bc7]);
  (774086774730007300, [0x4e01]);
  (774288591145631100, [0x59736728]);
  (774490815683707800, [0x58f08072]);
  (774693449998231000, [0x594f]);
  (774896495753269300, [0x533b91ab]);
  (775712826817185300, [0x80aa]);
  (775917955094241100, [0x6c99]);
  (776123505012450700, [0x5c065c07]);
  (776329478308751800, [0x6f2b]);
  (777783294153354450, [0x76d176e3]);
  (778412886999036000, [0x7591]);
  (779046468843944500, [0x77e5]);
  (779258558000858300, [0x771f]);
  (779471097932089700, [0x4e0e503a50b580338207]);
  (779684090557872200, [0x866b87f2900f]);
  (781839346396445600, [0x6c7d]);
  (782276028313079600, [0x6821]);
  (782495086451061450, [0x5f8b]);
  (782714625507405100, [0x51485b58]);
  (783155154854196700, [0x76f8]);
  (783376149419276900, [0x6c428eab]);
  (784265044161001600, [0x5f85]);
  (785161911159277600, [0x65cb6bd2]);
  (785613379194730300, [0x7def7eac928592d294dc950b]);
  (786522476364855500, [0x5fa179a6]);
  (786980143067596700, [0x4e59]);
  (787209764293631700, [0x6ce2]);
  (787670594602251100, [0x841d863f9662]);
  (788133558392125300, [0x79cd7a2e92fc94a2]);
  (788365846533739200, [0x52125283]);
  (788598675509698400, [0x5fae]);
  (789065966079637600, [0x51c65f815fb56e96]);
  (789535450510058400, [0x810f81df]);
  (789771021879304300, [0x5b9d5bf697099ef4]);
  (790243835998898900, [0x666e]);
  (790957275410286300, [0x4e708cb7]);
  (791196224150024500, [0x5b886563]);
  (792157770019968700, [0x51b36c7a96f7]);
  (792399608106396800, [0x6848]);
  (792642032467547400, [0x69b4]);
  (793128651432664700, [0x4f4f5986599d6eb6]);
  (793372851798219900, [0x59d1]);
  (793617649962083950, [0x6ed1]);
  (793863048858240550, [0x5178]);
  (794355660691846100, [0x745a9675]);
  (794602879606385050, [0x592b]);
  (795348224671843200, [0x4e2a500b]);
  (795848225713513700, [0x8e44]);
  (796099166874056300, [0x923494c3]);
  (796350739333781000, [0x5fd775977642]);
  (796602946277052000, [0x68b081ea]);
  (796855790912387900, [0x928094f6]);
  (797109276472706700, [0x70df71599752]);
  (797363406215574000, [0x5f559304]);
  (797873611403963500, [0x5e2d]);
  (799420033973721600, [0x53567df47ec38ce3]);
  (800202306541842600, [0x62e964c7]);
  (800464429889830000, [0x6e21800c]);
  (800727242130456900, [0x7db27f51]);
  (800990746894257400, [0x5224]);
  (801519848657699000, [0x4f5453606cfd6e296eab6fa48b938ba9]);
  (802051764805459000, [0x63a5]);
  (802854981975185400, [0x9152]);
  (803394066838673000, [0x57df]);
  (803664702998447400, [0x83dc]);
  (803936073585607000, [0x83cc]);
  (804481034062363400, [0x6240]);
  (804754632044250900, [0x53f7865f]);
  (805028980638826000, [0x5c9b5cf68fde9023]);
  (805304083976015000, [0x71c3835085a6]);
  (805579946219923000, [0x6c28]);
  (805856571569212000, [0x9760]);
  (806691068762430000, [0x814a81d8]);
  (807251294317297000, [0x6b63]);
  (807814676089122600, [0x535a5f027570]);
  (808097561709170400, [0x805a9ebb]);
  (808381249842690300, [0x6ccc]);
  (809524119425052600, [0x5893]);
  (809811889407814000, [0x53d798df]);
  (810100489896727700, [0x5473654f]);
  (810680201665160300, [0x73e0]);
  (811263293696239500, [0x5176]);
  (811556119674148300, [0x98189886]);
  (811849805641479300, [0x671b]);
  (813033251406179700, [0x65ad65b767089010]);
  (813331314219993500, [0x7a3c]);
  (813930118404455700, [0x5237]);
  (814230870510851200, [0x652f]);
  (814532529864793800, [0x7cd6]);
  (815138592325962800, [0x670d8ac78c088fc7904e]);
  (815443006564085800, [0x5e085e2b5ead]);
  (815748350312774700, [0x50a85132]);
  (816054629265829200, [0x5c425c648f2f8f91]);
  (816361849169526400, [0x9001]);
  (816670015823267200, [0x7f6e8cb88d37]);
  (816979135080234400, [0x5e015e635e958acb8bf7]);
  (817289212848059200, [0x98fe9970]);
  (817600255089498500, [0x6d88]);
  (817912267823122900, [0x53825ee06297]);
  (818225257124015600, [0x50656742817a96dc]);
  (819487103519936800, [0x5c45]);
  (820124048348484700, [0x88c2]);
  (820444048621552000, [0x6838]);
  (820765076184576600, [0x8a0e8ba8]);
  (821087137654580900, [0x4faf52a968376a238239]);
  (822713189741758900, [0x4f55540e5a465f8c6b276b508a2a8bbf]);
  (823041597261877900, [0x843d]);
  (823371086851563100, [0x4e3e70b982099ede]);
  (824033340927612600, [0x5a01846c]);
  (824700010063431500, [0x80a0817898db98de]);
  (825035018751959700, [0x6f149375952e]);
  (825371153522230100, [0x7e2e7f29]);
  (825708421970094000, [0x521a525b]);
  (826046831768518000, [0x5e55]);
  (826386390668632000, [0x9707]);
  (827068987175672000, [0x505c]);
  (827412040685350900, [0x56ed57126ce5]);
  (827756275104448100, [0x4ea15dde]);
  (828101698591256900, [0x4f2450b7552f753b756b932294b1]);
  (828448319388905600, [0x8c46]);
  (828796145826538000, [0x67f18ddd]);
  (829145186320514900, [0x55315f00958b]);
  (829846943586379600, [0x4e1864ad6e2f]);
  (830199677638176300, [0x5fc661b6]);
  (830553660308688700, [0x4e45]);
  (830908900469125600, [0x96be96e3]);
  (831265407085575200, [0x811a8173]);
  (831623189220363600, [0x8a2d8bbe]);
  (831982256033436400, [0x7167]);
  (832704280830785100, [0x7840790e]);
  (833431556763693100, [0x54c87e2b7f1d8d70984d989d]);
  (833797187884004000, [0x7f6a]);
  (834164160772900400, [0x5ab37d667ed990029069]);
  (834532485314530000, [0x82f1]);
  (834902171502662700, [0x53c253c362c78aaa8bf4]);
  (835273229442316100, [0x67a26a1e]);
  (835645669351414400, [0x542856787cbe]);
  (836019501562475000, [0x537054109999]);
  (836394736524330200, [0x5f205f356ce8]);
  (836771384803877900, [0x7d9c7efc]);
  (837149457087868500, [0x6d6a8fbe9054]);
  (837528964184723500, [0x6c617968]);
  (837909917026390400, [0x4f5b]);
  (838292326670230800, [0x6bd47b26]);
  (838676204300947200, [0x5a5a898f89c4]);
  (839061561232546400, [0x5976]);
  (839448408910338300, [0x8b66]);
  (839836758912978200, [0x5cf0]);
  (840226622954543800, [0x68116a3990fd]);
  (840618012886657500, [0x675f]);
  (841010940700646400, [0x5225522b]);
  (841405418529748000, [0x516b5f269640964d]);
  (841801458651357700, [0x7d617edc8cf48d56]);
  (842199073489321700, [0x724773af74b084dd85cd8d77]);
  (842598275616275500, [0x7c928fb9908a]);
  (842999077756029400, [0x51c06de88cbf8d38]);
  (843401492786002000, [0x6b47]);
  (843805533739702400, [0x8c37]);
  (844211213809263800, [0x70e771d28003]);
  (844618546348027400, [0x88c1]);
  (845027544873180000, [0x842885a9]);
  (845850594786831400, [0x6c2f732e737b]);
  (846264674053434600, [0x4f8855615851590d597469886ada76ee]);
  (847098012209349000, [0x521b527579f07a31]);
  (847517300035352700, [0x8abf8c03]);
  (847938353288987000, [0x7d197eb896c5]);
  (848361186899939100, [0x537569846b166e7f6fd5]);
  (849212255866730000, [0x4ecb59885abd62986d3e80a4819a8a668bd5]);
  (849640522045930000, [0x914d]);
  (850502596350320800, [0x81508b6f8bd1]);
  (851372167047076200, [0x4e1e]);
  (851809804507056000, [0x53d8821e8b8a]);
  (852249365654359900, [0x725b]);
  (852690867475271500, [0x8a348bc990a6]);
  (853134327182058000, [0x7559]);
  (854476629215272000, [0x4ef65256597d718a]);
  (854928097250724800, [0x4e2451695f526b78]);
  (855381612767264000, [0x4e1957a9580a]);
  (856294861123591200, [0x5956734e8ca08d1f9cf49e23]);
  (856754632048454000, [0x535c5cad5dba7e967ea4]);
  (857216526634083600, [0x57668fa8]);
  (857680564589733800, [0x4fee95a39601]);
  (858146765900314900, [0x534154e55ba278b18f3b8f909e7c]);
  (858615150831557500, [0x5a186a616e057d177dd27eb17eea]);
  (859085739935298800, [0x5b995f375f3a7fc5]);
  (859558554054893500, [0x636263db]);
  (860510942206019000, [0x5f0f8017]);
  (861956750523542000, [0x5f255f4c628a76d09e7d]);
  (862443369488659300, [0x6d016f54]);
  (863423769498321300, [0x5c518005]);
  (863917597662379700, [0x5361743484c48861]);
  (864413876596592500, [0x90ce]);
  (864912630747696400, [0x811181668d8a]);
  (865917664333046500, [0x9bae9c9c]);
  (866423994528701200, [0x632f6843788d7919]);
  (866932901479448300, [0x96c4]);
  (867444411546125400, [0x5fd8]);
  (867958551496167300, [0x5144]);
  (868475348512011500, [0x4f10503e50be6cc97de87f16]);
  (868994830199722000, [0x50198870]);
  (869517024597837100, [0x98389888]);
  (870041960186451400, [0x70ad]);
  (870569665896535800, [0x4e91639896f2]);
  (871100171119505000, [0x6b8a]);
  (872169700031180000, [0x507f511f8015826f]);
  (872708784894667600, [0x56de80e19f529f7f]);
  (873250791641601500, [0x500d6c5f83b284ee99289986]);
  (873795752118358000, [0x808c]);
  (874343698694820600, [0x58f36bbc7814]);
  (874894664275917600, [0x9700]);
  (875448682313479000, [0x51b052bf52e25bbe8cd3]);
  (876005786818424600, [0x9170]);
  (876566012373291600, [0x5b815b855baa5be761b2]);
  (877695967898684900, [0x5e055e257687]);
  (878265770010148600, [0x4ed956fe5716590486559f20]);
  (878838837481047200, [0x74e6]);
  (879415207952722300, [0x4e085b595b6b7b8d7f8e]);
  (879994919721154800, [0x588359bb7de37f18]);
  (880578011752234000, [0x576192b99508]);
  (881164523697473900, [0x4f17594b596e653b6574773e]);
  (882347969462174200, [0x7d0d7eb3]);
  (882944986160824600, [0x5c168feb9f13]);
  (883545588566845700, [0x7c898a1f8bbc]);
  (884757724620080300, [0x585e63a78b5c8c3193969501]);
  (885369347321823800, [0x6e5692239499]);
  (885984733879261700, [0x4e39]);
  (886603930904053800, [0x5ba15be9]);
  (887226985879117400, [0x79c17cb980c0813991ce9f619f84]);
  (888484864099803300, [0x4e6191099ed1]);
  (889119786867669300, [0x51777470]);
  (889758766677546300, [0x4eb25b55819c89aa]);
  (890401855710575400, [0x4e95]);
  (891049107161137100, [0x4e3a534f535466fc70ba7965810881098a138a3a8bad8bca]);
  (892356315317872500, [0x52b352de6c226c2b6ec5706d]);
  (893016383721007600, [0x574f58de80a5]);
  (893680837992874500, [0x594770ef793c79ae81a8]);
  (894349736807954000, [0x4e07780178bc809d842c87ba]);
  (895023140026088600, [0x719f810281f498029876]);
  (895701108724626500, [0x63a8]);
  (896383705231666500, [0x7d2293109525]);
  (897070993160442700, [0x67b67237723a7f8a]);
  (898459904376509400, [0x518a518c78e880ce8680875598019875]);
  (899161661642374000, [0x534862bc]);
  (899868378364683300, [0x524d58fd5bff5faa96ea9759975c]);
  (900580125141569700, [0x4f7f51745a9279d8804c80778208]);
  (902018998886779700, [0x554f7a337a69888b95ee]);
  (902746274819687500, [0x53ed64e6]);
  (903478878828895000, [0x57f75c0162678a898b7d]);
  (904216889558657000, [0x77bb82ef864e984c9898]);
  (904960387407408900, [0x523b63a178b391c7]);
  (905709454580324700, [0x7164811381bf]);
  (906464175143863000, [0x573e707572ac9748]);
  (907224635082385000, [0x5bab5bae67aa689769cd6d466f3f9057907a]);
  (907990922356941800, [0x4ed853ca5b6384b8]);
  (908763126966332800, [0x857e]);
  (909541341010538300, [0x56f05e8f6046605268af786c8cfd8d5b91ca91cb]);
  (910325658756641000, [0x4e53547c5f796cf373347c988ca98d2993ae9547968f96a8]);
  (911116176707352200, [0x53eb60e0]);
  (911912993672270000, [0x7d20]);
  (912716210841996300, [0x524a720673877a9d7aa97d097eab82bd]);
  (913525931865258300, [0x6d1b76f47b147b46]);
  (914342262929174500, [0x5c4065f16b62]);
  (915165312842826000, [0x6839]);
  (915995193124295400, [0x4f3c]);
  (916832018091347200, [0x4ed64f8b809a8fc19077]);
  (917675904955933700, [0x59315b98674e6d2a72368a028ba2904d]);
  (918526973922724500, [0x7c27934b9505963b]);
  (919385348291863600, [0x5e7c65577c7d8d25]);
  (920251154566175000, [0x5c0a80f681a0]);
  (921124522563050400, [0x5e935eab60ef616370ae7272]);
  (922005585531266000, [0x53f35fb76768694a80588ef88f74]);
  (922894480272990600, [0x58c1591a785d7f5a7f7096de980598799b5a9c7c9e21]);
  (923791347271266600, [0x51b2667a885d]);
  (924696330823258500, [0x561b62c5635f63a2640d64d4]);
  (925609579179585800, [0x5e1877fe792c7c3e]);
  (926531244690078100, [0x4fd76c1f724c73bb74dc7b528389]);
  (927461483956309400, [0x52d2621268c06aa27ae580898b1d8c22]);
  (928400457991293300, [0x4f9b526f6591756a]);
  (929348332386747700, [0x5f1f66b467dc6ac3]);
  (930305277488362800, [0x53d66aac6c496f227db17eb2903b908f]);
  (931271468579536500, [0x4e435bcc5f6962d365e06d6e71217530]);
  (932247086074073000, [0x6016853d]);
  (933232315718374200, [0x57506069707d707e7126]);
  (934227348803691000, [0x4f6350ad56ca570862dc6551677e]);
  (935232382389041000, [0x4e2659225e7668a672fc822c82f78fe6]);
  (936247619535442900, [0x64cd69ae725f80a28363]);
  (937273269552161800, [0x558a62cd80f88a558bc49ad3]);
  (938309548255716500, [0x4ed466206746687f8afe8bfa93e1955c9f3b]);
  (939356678242446000, [0x53ec5bd25fc566257d397ecd8a628be28fa98faf9a199a979d519e43]);
  (940414889175499600, [0x51b7663e77408e48986f]);
  (941484418087174500, [0x627064fe688170bc713071499583959895ea95f8]);
  (942565509697596000, [0x4eec5011614c679d77207f508cc48d3f9664]);
  (943658416750815100, [0x558760bc70bd71be7e3e7ee99738]);
  (944763400369473600, [0x4f11520758ee58ef6b226b618179817f981c988c]);
  (945880730429286100, [0x4e944ec04fa850d15ce15cfd5eb779c07d5e7ede8dd193189524]);
  (947010685954679400, [0x4f3051bb51cd75db7af981548f098f7d900690ae90f5]);
  (948153555537041700, [0x58e45a03625367516c60]);
  (949309637777149400, [0x5957649064917802]);
  (950479241753468400, [0x627662d6820d]);
  (951662687518168800, [0x591c598759c65a66697c6a136ee46ffe7d687ed28ff098f2996e9a459a719ea59ea6]);
  (952860306622840300, [0x52e458575e9f5ee26d8274f6]);
  (954072442676074800, [0x660c8dbe]);
  (955299451935256300, [0x53bf5f03669668c46b216ee16eff765c7e2389ba89c98cc38d4197f597fb]);
  (956541703935112000, [0x5047535555ae65e780d6820a]);
  (957799582155797900, [0x53866b77820c8c6a96349670]);
  (959073484733540800, [0x67406bba6c57745f7d2b9b42]);
  (960363825217131700, [0x53f956065b5482ac82cf86078ddf98ef996d]);
  (961671033373867000, [0x5df15e3d6211638c6d896db27537798f846b867992c59333950c9530]);
  (962995556048869000, [0x4e8e520058a865bc680f68cd6b046d1e78f7818f9910]);
  (964337858082083200, [0x5c606251627964b268867e7c7ee77f3a8f038f83]);
  (965698423287661000, [0x4e0350da542c786b7a777aae807d9189]);
  (967077755500894500, [0x4fbf5377706f71c87cca8cde8d4f9644]);
  (968476379698368500, [0x4f7c5203544662ff68c9983b9891]);
  (969894843197564200, [0x4f18512a5339541b6cc46d2974f78721881f]);
  (971333716942774200, [0x56f4570d5e2e5e6b685083368a958bde]);
  (972793596884889500, [0x527252c757ab588a59fb81c287768df78e7a9ce59e1f]);
  (974275105463403400, [0x4f34523a540362ec644a6524714c77ed7a837aca7ad97fd4854986958836]);
  (975778893199857600, [0x620f623277ee8f4e8f7f8fd1929694e2]);
  (977305640412936300, [0x521952476f6e82368b808bfb]);
  (978856059066532900, [0x53e0589e5ea77372758a83b7906396c0]);
  (980430894763346700, [0x5374537b60d162c6676f6d536da46ecc6fc38f9e8fad]);
  (982030928897990800, [0x536663cf6664690e6a2190c19b31]);
  (983656980985168900, [0x519957825beb6d177b11810a]);
  (985309911180290000, [0x551058755c18674f6a2a6a6b730e737575257dbf7ef58b1b8bb293a294a8]);
  (986990623011928200, [0x4eea510053cb559c]);
  (988700066347858100, [0x4e92514d7e317eb5846185aa90a3]);
  (990439240619045000, [0x4f0d56e059b95f3162fc65a7674969126c2e6f2093829541]);
  (992209198328985100, [0x51fd622a6cab89e689f8]);
  (994011048879253000, [0x501251e458025c31620a63f464876e2075189cf3]);
  (995845962746072600, [0x4fa04fe05323559856345c385c4d675e76ea80cc836185fb8c8c]);
  (997715176047287900, [0x5f53621a62846539671d672b679a732a757676fe8c6c9abc]);
  (999619995544357400, [0x5e9762cc76249175]);
  (1001561804130067500, [0x4ee5575a580581658abc8c0a8d6b8e0f92ae947e975e]);
  (1003542066859685500, [0x51a0621b76f29ed8]);
  (1005562337591437400, [0x55075c816b727d2f80f18dc38e8d]);
  (1007624266311711000, [0x4e1b5145521d53e255845de85f2965e67b3c7bb17c608205886588dc8df58e10]);
  (1009729607231494200, [0x521152b252c153785ac25d3d5ddd62db6d31]);
  (1011880227753590600, [0x5320590f6c0f6cdb6d697897829d91dd948896359663]);
  (1014078118425468100, [0x60e761fc72d0733f87028857916e97ad9808987b]);
  (1016325404010674000, [0x54095bb068f172af8170]);
  (1018624355833143900, [0x4e2b507b50c25e066162659c6d476ede6eef6f86776b82a686068df390149d619e49]);
  (1020977405574163300, [0x4e4f539a53bb54c758545bc45dee66706e836f707329739b746a7ffc80da86e48cab8d2f9686]);
  (1023387160732069400, [0x524252915e8a68856e7e6ef4706376db7a819996]);
  (1025856421991106500, [0x4e585fcc6c30728173cd783e792b7aa57aba7ddd7f098a5e8bcd8ecc8f689b3c]);
  (1028388202789535400, [0x52ab75387fa4830483058edb8f6d959295f2]);
  (1030985751429861500, [0x4fb551925a745b305bbf684c6b8b6b98755c788e7a3f80838085871c9176919b9813987f9d5d9e45]);
  (1033652576138077700, [0x56765e84601c60d56190624d6dc072f877fd78457aa8813881c9838a86c78c9d8d1d932b9521993e998f]);
  (1036392473556889000, [0x4e5d4fd1504f507660a362956a806b4c6c507aa67ac78fb19012905e]);
  (1039209561253558800, [0x4e3d51c959e85de2621f62e864a5672a6b326ce36dbc6e897bf77cb17d147eaf8a318bb89e979f9c9f9f]);
  (1042108314940883900, [0x63a0649e708972108fea]);
  (1045093611255852100, [0x55895df2608467f469df6ab36ce16d3c6e176ef27aaa7c4d83319c2d9ccd]);
  (1048170777122527400, [0x5d4c6469704c86db86ee883b904795f998fc99729b279c579cde]);
  (1051345646953985400, [0x4ed14ef0501f520a559d5c3a5d19615161fe6d257aef80c180fa8105818a82c184ef868187fb8caf8d2e8f1d8f899677]);
  (1054624629236284500, [0x4ed7562759d35de75f845f915feb669772ec73687586815581fc92f8952f]);
  (1058014784403852600, [0x51545379589960646c646cf06e6f71a8724672b87341764c76d776dc7c9f7caa7cde82c7845784668a698bd78cbc8d34; 0x9a0e9a91]);
  (1061523916384979700, [0x522e5f2f5f4e5f57604b62006269635564f46789781678da78fa83529694978b]);
  (1065160680802067200, [0x4ec754d1555e59da5c4b606565a468a86c7079cb803b830283bd934d95409d289e2d]);
  (1068934713600352000, [0x4e13515c5760589c597859d059e65a765b385be15c0865c167af67f5680568d26a4470787533759976827ae07cd980db; 0x83779214949e96a7]);
  (1072856784915680000, [0x53d457235e7f5ee35ef7695a6c9f6cd76df16e9d6eaa74e3805680c6813e81bd887288e489328a8d8ba4932f9519]);
  (1076938984367705600, [0x4e344eff4f6550c95343575d58e9602562df640f64ec685168656a4b6c416cea6dda6eda6efe6fa17bee7c4381e88299; 0x95ca9614]);
  (1081194945809585100, [0x50215413543956875757584a595159965ba4609462f165d76691671768e0695d75a1760d777e79c87b1b7c7c80bf816b; 0x81f3823584ba874e880d8925900093269526]);
  (1085640122066668500, [0x4ece516d536255835e865f085f9e607660e16176631b6392652368466dc773c076e783e990599065925b94c596489673; 0x9bab9c9b]);
  (1090292123630157800, [0x4e2553db54bd55d356b45dfe620c649265c3690572ee734575b176b0794079e77a3b7f9e7fe08010887788968f1b8f86; 0x8fa3916c98109884]);
  (1095171140047101000, [0x52b152f55b9c5d2967f370e67169758f7a1e7a578b178c248cc28cec8d268d42]);
  (1100300469485856000, [0x544b55b75674576f58855e7b60ac616e61f862d0642d665266ec686669306a3a6cbd6e237262789b78e77a207e937f28; 0x8038807386518a508aa08bc88bda8c9e8d1e97cc97e7]);
  (1105707191612883600, [0x4eae51b552d85351560c57a658be5ca95df762f3635e6488654568d56cc16cca798579aa7d427ec87f7582cd82e68354; 0x84bc88c68960915a9171917791ac9418949f9a829ab69df99e709f0e]);
  (1111423032996878400, [0x51ac53d95784579b58df5939593e5f2762636558665a69fd6ee97058707c7389743677017e9c7f0682af83ca8517865a; 0x865b8d088d60918b9274945196fe972799c19a73]);
  (1117485495178522000, [0x4f0f53105319551158d15b5f5e7d612461a4647866276735708e71e5742a749079bd7a1a7a747aff7b547da27e797e82; 0x7ece7ef880c3811081cd88ad897299dd9a7c]);
  (1123939347292279000, [0x4f435230561856535be85f136108629a637764ab654c65756ea2778e77aa7e737f348116832c8adc8c0d8f298f889a62; 0x9a74]);
  (1130838634440974200, [0x517d51cf542b5506556c55c7579257cb58d85ac16028630965c565e8695e6e1b722a7280737875bc75eb764778987a91; 0x7a9f7aaf83ab83c783d685e489218ecb8f6791c9]);
  (1138249431656346500, [0x4ec14fc14fe354ac556457775bd3638865a565bd681668cb68f26d8e77f87a7f8036819b8334836b83e0852d871889b2; 0x89d08d668dd68e608f9b8fab8fae90ca92bb92c194dd95119867987e9a439aa09c139cc3]);
  (1146253702423700100, [0x4e324e4c5482572d5949624e626c62d463b863da64a370c270cf70e470f7710a721b728a72a272c276d2787c79fb7a3d; 0x7d277d5b7dca7ee67f9a83a883ea8463849986d08ce08d548dcc916f926c947094a594bc95a895fa9db49e64]);
  (1154954840122663000, [0x4f264f2a4fd8502b507d5195520d53a55404540a541e5440574a574e5ef65fcd620d62a263d2643664bc64ce67d46813; 0x68a76bef6e146f0170c872d775e2763e766e767b7a237a4c814882bb8ca18d228e2a90bb913091f59264949794a99732; 0x978d9826988f99059913997c997f]);
  (1164485858103095600, [0x51405364543554365450563156d156da5821596559675ae95b9b5c415e1a5f70665366c966f466ff693f69db6abb6d4a; 0x6fc175f475f975fa76c67dac7e417ef682a882d787a887ce89368ab28bfe8cb48d35918792b3944494f8951095bb960e; 0x96769e75]);
  (1175021909668878100, [0x4e274e714e824eab4f384fc454ee55aa59835c1a5c655e9a5f0a5f9261706444651d662f68ad69426cfe6d8771d5722c; 0x72f1734473a9760076cf76de7b3a7b5d7b8b7b8f7d1b7eb77f3883098346834a87008da38f9c90ed969096b19be89cb8]);
  (1186800213234516500, [0x50f1512151e052df540154b354cc599e5a1b5a295a315b5d5e7e62086350656268426c136cfb6da86ee86f066f326ff1; 0x7009714e71847405746f761f770977617c727e6a7ed880a981ed873b87b58b2c8c2c8c828eac8ef28f148f718f858fce; 0x8ffd922692ea949b94fa96c796f397429811987d9c529cdf]);
  (1200153352496968800, [0x4f73543c54e856095733593859ff5bf85fd9629162ac673d681769bb78b479e47a4e7abf7b037b4f7be47db87eb67f72; 0x80b180be814e817e8398851385378543859487c688458a878aa68bf5900391c191d8948998969a309e9f]);
  (1215568420479694600, [0x4e304f1e509851f05251528d53675395558b57f9598259ae5b8b5c245cfb5eb85ec160ca626b630263216383639b64cb; 0x657767a367ef68d76b676be16c086c926ca16dd86f6d74e47cdf7f3080ba812b812f813181e582d3868a86a487078c50; 0x8ca28d21915091659257927b94b394ec95b19605966a979897c19a5a9d269e2f]);
  (1233800576159090000, [0x4e384ead4eca4f845112518d5371542655245566559a57c3586b59155b625bc25d4b5f1768d86a316a906afb6d746e0d; 0x6f2c709270ac72b97336759f75f07627762979d27afa7c377e697e6d7ef37f557fce7fd87ff9806a80708327832f837c; 0x83ba8471848284ec852585af889c8944896a8aa48b398bef8c288c4c8e228fdf90429072916a973097569ab89d239daf; 0x9e2a9ece]);
  (1256114931290511000, [0x50f5514651ed51ef51f15349538c539853ad543b56a356bc56c25751575b57d458c759a55eb65fe76182619162e363c0; 0x63e164b066a866f36777687668b56d3d6d786db56f31745e75d8760c766b76727837789f78be79e67b777d3a7e5e7ec0; 0x7ed5804a82c8840e858485dc85f6874887c88854886b888d88d58a1b8b0a8bb98c0e8d768d958fd890849237929c94b4; 0x9952997699a899ad9a6d9c499cd6]);
  (1284883138535689200, [0x4f3d4f60505a50e750fb518852015228533f53e553ea54275431549d54af55ea565d566a583558a9599959ca5c4e5ca1; 0x5e165e375e445e78606860a062416369643a651c6655668866ae685568ee6bc06bc16c826ca56cb16cbf6df76f02701d; 0x726f732b736d737a73ca7409743c745974ca753e75ae75de7621768877b078b079c67a087b067bd37c0d7f947f9f7fa5; 0x7fa780188132816e83f2841c843c847384df852b8587858a8760885989868a938c938d0f8d628d648edf8f6f90179230; 0x947d94bb94c8969896cc9761984698979d1b9e339f669f88]);
  (1325429649346505600, [0x4e864f6c4f8d4fa74fa94fcf50745108514c515151f852aa52fa53cc54a754aa54e95567557655b156165740575f5768; 0x58b3592f5c485d1660eb611b618a623462476346637b63aa64586727673167cf686968b368da69ab69ff6a016bd56c16; 0x6c5b6cfc6e9c6f0f6f5171947231723d724d725873507562759a75c975d977db795d7978798d79ba7d557e377edd7f15; 0x7fe980e780f082738277829283288335864f865c86a388f98ca78cca8d2b8d3c8d8b8da88e1d8e668eba907f9192923e; 0x92c794a194c0963f96cd96d596d9970d99d299f19a799a869bea9cae]);
  (1394744367402500100, [0x4e884fa34fa64fb6507551e15243532a5417542154295464548f55ce55fd567b57035811584c587959925a075a3c5b0c; 0x5b975e105e335e875e995edf5fbd60126085609f60a660e961c261f26316641464166446644764fa65a965ac660f6643; 0x687768a2699c6c406cd46d636da16da96dcb6de16e266f806f9c703e70d9738473b373e775af75b9760b763f766d7779; 0x77b37977797f798479b179bf79c37a007ade7aed7af67b4b7b947d797de97e1b7e617ee27ee37f137f1a7fbd7ffb8000; 0x809f80bd81888212821f82478290829c82c482d182d482de836c84ff854a8552856a8650867e869c86c086c686ce86d4; 0x8766879f88168823884d88b18a548a608bcf8c798cc08cdc8d3a8d508de18e2f8e6c8e918fd48ff990f89132924092ef; 0x93f094be9506955a96f6971c977697a39806986b9871987a988598a498fd990c994b9971997599889bca9ca89d3b9e3f])
].
(** prob_emit.go:68320-68320 probEmit, state 326 *)
Definition emit_326 : list (Z * list Z) := [].
(** prob_emit.go:68321-72483 probEmit, state 327 *)
Definition emit_327 : list (Z * list Z) := [
  (414540891745966200, [0x5c14723e]);
  (418826274471414450, [0x5927]);
  (445460254368415200, [0x65af]);
  (450759963406371100, [0x5b97]);
  (450936829388097200, [0x5fb7]);
  (459739404120271900, [0x5c0f]);
  (460652120428221800, [0x514b]);
  (463883643561879400, [0x6587]);
  (470699490674659200, [0x5b50]);
  (473145027397022300, [0x592a]);
  (475992434202542400, [0x56fd570b]);
  (487603150278133100, [0x5bb6]);
  (488966164821777500, [0x5929]);
  (497700263086077100, [0x4e16]);
  (499755716552121050, [0x5c45]);
  (507769602241841600, [0x7389]);
  (512373996091982300, [0x4e2d]);
  (513824252228645050, [0x9ad8]);
  (515802522946231200, [0x79c9]);
  (516721052962616500, [0x660e]);
  (516823634609498850, [0x9d3b9e3f]);
  (521301472561703500, [0x62c9]);
  (523033742511096000, [0x4e09]);
  (523691159049789600, [0x798f]);
  (525242150259074300, [0x58eb]);
  (526440217753019550, [0x4e00]);
  (530514570683011900, [0x4e4b]);
  (532056407908040450, [0x91d1]);
  (534843904081327450, [0x7279]);
  (536039055335915800, [0x5609]);
  (536246567342316200, [0x683c]);
  (537374634454071400, [0x5143]);
  (537922350169225000, [0x5229]);
  (540663421138554940, [0x732e737b]);
  (542548201893990300, [0x4e9a4e9e627f]);
  (542814041660651300, [0x6c38]);
  (544019144394886700, [0x5b665b78]);
  (545238947185982700, [0x5efa]);
  (546519843015240800, [0x4e3d9e97]);
  (549986232224999200, [0x88e191cc]);
  (550272628602142100, [0x601d]);
  (550655770833297700, [0x665366c9]);
  (551040386692045600, [0x592b]);
  (552789702436797200, [0x7426]);
  (552887789742356400, [0x79cb]);
  (555321483235226200, [0x6cfd6fa4]);
  (555674039631630100, [0x4f2f]);
  (555926628803561800, [0x516c]);
  (556535458690287300, [0x5149]);
  (560798058254908200, [0x9b6f9c81]);
  (562027034449898700, [0x6d77]);
  (564310983646881100, [0x4fca]);
  (567212973004232900, [0x65b9]);
  (567837797530626800, [0x99ac9a6c]);
  (569272542371441000, [0x7f577f85]);
  (570318455450454650, [0x7dad7ef4]);
  (570904280207291500, [0x9577957f]);
  (573946566728610600, [0x5c11]);
  (575042801823577000, [0x8b198c26]);
  (575288050260419000, [0x5148]);
  (577397309598728900, [0x4e8c]);
  (578468860980041500, [0x5170862d]);
  (579487978080660300, [0x5fd7]);
  (579937128659289950, [0x5c3c]);
  (580259190129294200, [0x6797]);
  (580776655708295900, [0x5409]);
  (581623290527717200, [0x826f]);
  (582082157278460300, [0x82f1]);
  (582279460861046200, [0x53ef]);
  (585354569474360400, [0x4e9196f2]);
  (585830922875963700, [0x81ea]);
  (586928327579161500, [0x897f]);
  (587273751065970200, [0x6709]);
  (588457196830670400, [0x4f2050b3]);
  (588667501850348350, [0x65b0]);
  (588737701923431400, [0x7acb]);
  (589938705409184600, [0x4ecb]);
  (590223403110377400, [0x611b7231]);
  (590866951988576500, [0x80fd]);
  (592530643164392000, [0x4f9d]);
  (592822827448228500, [0x5b9d5bf6]);
  (594370960100156150, [0x6b63]);
  (594817721826127700, [0x7687]);
  (595191554037188500, [0x4e1c6771]);
  (596549040946295300, [0x6c5d]);
  (598079292688979100, [0x4e5d]);
  (599086662695632800, [0x83b284ee]);
  (599164574659059800, [0x5e085e2b]);
  (599320580930950000, [0x9053]);
  (601132367394584800, [0x5f00958b]);
  (601291476417809000, [0x745e]);
  (602654222957709200, [0x8001]);
  (603139660804189000, [0x671d]);
  (603383266283977100, [0x6e05]);
  (607110405763700300, [0x4e497fa9]);
  (609328926786648200, [0x5e0c]);
  (610719044741142400, [0x6469]);
  (610981856981769300, [0x6d1b]);
  (611862919949984800, [0x6c5f]);
  (612306379656771400, [0x79c0]);
  (612841140289430900, [0x738b]);
  (613109596826497800, [0x83b1840a]);
  (615926684523167500, [0x6625]);
  (616111186420524300, [0x5c71]);
  (616296029356702600, [0x5e03]);
  (617881144130464500, [0x5b89]);
  (618163497259225100, [0x7fca]);
  (618446649878799000, [0x6210]);
  (619396324632524650, [0x6069]);
  (620258812010700700, [0x82e5]);
  (620741205613786000, [0x4e3a70ba]);
  (620837964208659600, [0x5146]);
  (622202507798351000, [0x56db]);
  (623685481095456000, [0x59c6]);
  (623785132324429900, [0x76d176e3]);
  (625291941345836650, [0x4ee5]);
  (626309244117141700, [0x55e3]);
  (627233749931546800, [0x6b66]);
  (627543827699371600, [0x5357]);
  (628062770223594200, [0x4f26502b]);
  (629635954215435600, [0x5ef7]);
  (630591882896781200, [0x7d057ea2]);
  (631126929652064300, [0x529b]);
  (631234283392916800, [0x653f]);
  (631557037842003400, [0x5e866176]);
  (631664854564037900, [0x4ec1]);
  (632640472058574400, [0x51b065f66642]);
  (635401553032973500, [0x9806987a]);
  (635513597862622500, [0x767e]);
  (635850487569233000, [0x519b8ecd8fbe9054]);
  (636414504856859100, [0x5854]);
  (637666655536663200, [0x52d26c34]);
  (638125898594084300, [0x96f7]);
  (638587260427435500, [0x79d1]);
  (638702934240217900, [0x9633967d]);
  (639516419260845500, [0x5ef6]);
  (639633173506449200, [0x5b5d]);
  (639750064226947400, [0x5df4656c6728]);
  (640572147541433200, [0x5e73]);
  (642236870884748800, [0x5a18]);
  (643200733768525600, [0x5f97]);
  (643807900175380600, [0x9999]);
  (644296301634623200, [0x7e7c7ee7]);
  (644664174520369400, [0x51e49cf3]);
  (645156786353975000, [0x4fdd]);
  (646649351375642600, [0x8cb48d35]);
  (646900292536185200, [0x535a]);
  (647151864995909900, [0x8c9e8d1e]);
  (647277888957138600, [0x534e7f8e83ef]);
  (647404071939180900, [0x589e]);
  (647530414343858050, [0x7d0d7eb38afe8bfa]);
  (647656916574516700, [0x5b8f]);
  (649316176083858650, [0x5b595b6b5fc3]);
  (649832306261881200, [0x83f2]);
  (650091373764290500, [0x666e]);
  (650221159635850500, [0x68116a39]);
  (650741994146564300, [0x548c]);
  (650872627737969800, [0x5b815be7]);
  (652056073502670100, [0x5361]);
  (652586578725639500, [0x542f555f]);
  (653521789282667500, [0x6c0f6c496f22]);
  (654195192500801900, [0x751f9f8d9f99]);
  (655145640931958300, [0x74e6]);
  (655282159724492300, [0x5ba3]);
  (656243045635155900, [0x5d07]);
  (657352627060661400, [0x52a0]);
  (657492194424558900, [0x541b]);
  (657771914886665000, [0x8482]);
  (658052419979425900, [0x5f8b]);
  (658192968140299300, [0x6d2a]);
  (659040430839396600, [0x5411778e]);
  (659324521939557000, [0x632f]);
  (659609422417164500, [0x9752]);
  (659895136897242400, [0x5fe0]);
  (662064419358368400, [0x76f8]);
  (662210725163544500, [0x943594c1]);
  (663240903516327050, [0x590d]);
  (663834377068308500, [0x5e7f5ee3]);
  (663983297423455300, [0x4ef2]);
  (664731244066584550, [0x7def7eac]);
  (665939717988091750, [0x5bc4]);
  (666396687557098200, [0x59d0]);
  (667162974831655100, [0x5b9a]);
  (667780260742363300, [0x5b88]);
  (667935179441046200, [0x4ed9]);
  (670129624866502100, [0x5bcc8c9d8d1d]);
  (670288229182065600, [0x666f]);
  (670606194473803500, [0x8fdb9032]);
  (670765557057331400, [0x932b9521]);
  (671405559241878200, [0x5e1d]);
  (671888263316709700, [0x51748208]);
  (672535514767271450, [0x898b89c1]);
  (673023717527002300, [0x57fa]);
  (673514315403887750, [0x842885a9]);
  (673678384349633800, [0x845b]);
  (674007332014673600, [0x96ea]);
  (675167245599008800, [0x91cd]);
  (677699026397437800, [0x963f]);
  (678041492485574200, [0x4e6666f8]);
  (678213166347479700, [0x57238056]);
  (678385135435432300, [0x59e8]);
  (678557400766576900, [0x6d4e6fdf]);
  (679075984469813500, [0x96c1]);
  (679423207040888400, [0x540d60e0]);
  (679946311982643600, [0x4fe1]);
  (681710026131254300, [0x5176]);
  (682066532747703900, [0x662d]);
  (682963399745979950, [0x54c8793c79ae]);
  (683505406492913900, [0x6842]);
  (683686730205332000, [0x7530]);
  (684050366969670300, [0x674e93269526]);
  (684232682425821900, [0x864e]);
  (685149279127229900, [0x672c]);
  (686820627224604000, [0x6ce2]);
  (687008068704039000, [0x53d4]);
  (687572510466006650, [0x4faf]);
  (687761367934793450, [0x8fea]);
  (687950582749997250, [0x78a7]);
  (688330089846852500, [0x585e]);
  (688711042688519200, [0x767d90a6]);
  (690249534572467200, [0x5dde629a64ab]);
  (690443521054249800, [0x771f77f3]);
  (691027748616672600, [0x53e469ae8363]);
  (691223252100252950, [0x6bd4]);
  (691419138548786300, [0x4f0a]);
  (691812066362775300, [0x7965]);
  (692206544191876900, [0x4f53884c9ad4]);
  (693599601545471600, [0x6cf0]);
  (693800203418158100, [0x61677c73]);
  (694202618448130700, [0x7d397ecd]);
  (694404434863754450, [0x7384]);
  (694606659401831200, [0x4eba]);
  (695215798341171350, [0x5b98]);
  (695828670535308700, [0x592268a6]);
  (696033798812364400, [0x5a01]);
  (696239348730574000, [0x591a]);
  (696858545755366200, [0x7d007da07eaa7eff]);
  (697273484110047300, [0x53d1767c]);
  (697899137871477800, [0x50916770]);
  (698108562031789300, [0x739b746a]);
  (698318425697481400, [0x4f69695a]);
  (699586941650213050, [0x6258767b]);
  (699799934275995500, [0x536b6ee16eff885b]);
  (700441647708058800, [0x98db98de]);
  (700656470561887800, [0x660c]);
  (701087505712000100, [0x8d6b]);
  (702610930169184800, [0x82b38fde9023]);
  (703935452844186900, [0x6da66f64]);
  (704604351659266600, [0x5316]);
  (704828315918617050, [0x6717]);
  (705503234116109900, [0x68ee]);
  (705729222912853600, [0x67cf]);
  (707786438320374400, [0x5982]);
  (708249402110248650, [0x677e]);
  (708714519227821800, [0x5c1a5e9461c9]);
  (710596927752385300, [0x4e0a5217]);
  (710834739992882000, [0x4f1f5049]);
  (711073119128409650, [0x7956]);
  (711551588940743300, [0x7d22]);
  (712273613738092000, [0x4f5c]);
  (712757876185670800, [0x5f655f66]);
  (713244495150788100, [0x5eb7]);
  (713978892576363900, [0x5bc6]);
  (714224895160450100, [0x4f865a466765]);
  (715215002258721400, [0x4e8e70759748]);
  (715464068389966550, [0x5c065c07]);
  (715713756409825200, [0x64166447]);
  (716215010592179600, [0x540c667a836f85e5]);
  (717225120190830100, [0x5317]);
  (717989455122086900, [0x8000]);
  (719276474174140400, [0x50e753f8]);
  (719795955861850800, [0x59cb]);
  (720056712202558800, [0x4e07842c]);
  (720843085848580300, [0x5b58]);
  (721106590612380800, [0x51796cd58332]);
  (721370791558664700, [0x76ca]);
  (721901296781634000, [0x66d9]);
  (722167608523582300, [0x9edb]);
  (722434631379170300, [0x58fd5bff6cbb9e7f]);
  (722702369156241900, [0x4e39]);
  (722970825693308800, [0x521952475251528d]);
  (723240004859879900, [0x596559676e58]);
  (723509910556796400, [0x6708]);
  (723780546716570700, [0x7d937ecf]);
  (724051917303730350, [0x65bd]);
  (724870475762374240, [0x53cc96d9]);
  (725144824356949300, [0x7a46]);
  (725972415287335300, [0x7531]);
  (727086632942659500, [0x51757d20]);
  (727367138035420350, [0x4ea6654f]);
  (727648432173081900, [0x5ca9928094f6]);
  (727930519807246000, [0x4ee380369707]);
  (728781588774036850, [0x96c5]);
  (729066895672277500, [0x8c61]);
  (729927733125937550, [0x513f5152]);
  (730216333614851000, [0x4e01]);
  (730796045383283600, [0x600061f7]);
  (731087166404029400, [0x81f3]);
  (731379137414362900, [0x5f0f]);
  (731671963392271800, [0x521852897d6e]);
  (731965649359602700, [0x77e595d695ef]);
  (732555621572321600, [0x9675]);
  (732851918085387200, [0x54e56cb3]);
  (733149095124303000, [0x514457ce70b3]);
  (733746111822953400, [0x6e90]);
  (734950945674570800, [0x56fe571684999189]);
  (735558850282209100, [0x6885]);
  (736170472983952700, [0x5766]);
  (736477692887649700, [0x76c8]);
  (737405056566182600, [0x5947]);
  (737716098807621900, [0x4eac79a7]);
  (738028111541246200, [0x5fa179a6]);
  (738341100842138950, [0x6696]);
  (738655072842605800, [0x7528]);
  (738970033732895400, [0x5f17]);
  (739285989761932250, [0x7cbe]);
  (740239892066608100, [0x52dd80dc]);
  (740559892339675200, [0x9b4f]);
  (741202981372704300, [0x53cb56e0]);
  (741526083430848900, [0x4eb289aa]);
  (741850232823266000, [0x5b5f]);
  (742175436361903700, [0x8cfd8d5b]);
  (742501700925385300, [0x52aa]);
  (743157440980001300, [0x66fc]);
  (743817509383136400, [0x65e59686]);
  (744815853781554800, [0x661f]);
  (746162675486641500, [0x65ed]);
  (746842950218916700, [0x795e]);
  (747527884403474200, [0x6b3d94a6]);
  (747872118822571400, [0x51ef51f17532]);
  (748217542309380250, [0x4e7e]);
  (748564163107028900, [0x5e9c7d2b]);
  (748911989544661300, [0x96e898a898ce]);
  (749611293093758400, [0x82cf8607]);
  (750315521356299700, [0x5bbe8cd3]);
  (751024744187248850, [0x7406]);
  (751739032938486850, [0x624e]);
  (752098099751559700, [0x4ead663e986f]);
  (752458460501889600, [0x71d5]);
  (753183101353966300, [0x5e15]);
  (753547400481816400, [0x5ddd]);
  (753913031602127500, [0x57286e296eab8fdc9060]);
  (754648329032653400, [0x4e434ece5f9e8c6a]);
  (755018015220786000, [0x536276e7]);
  (755761513069537700, [0x50655b8b5f205f35]);
  (756135345280598500, [0x5b876d25]);
  (757265300805991800, [0x51675185]);
  (757644807902847000, [0x797a88d5]);
  (758025760744513700, [0x5f18]);
  (758408170388354100, [0x4e506a02]);
  (758792048019070600, [0x4fee9759975c]);
  (759564252628461740, [0x51686df56e0a]);
  (759952602631101500, [0x4e2b6bcd7b797c4c]);
  (760342466672667200, [0x5bb9]);
  (760733856604780800, [0x535c]);
  (761521262247871400, [0x8d77]);
  (761917302369481100, [0x76db]);
  (762314917207445000, [0x55846c11]);
  (762714119334398800, [0x54685c559031]);
  (763114921474152650, [0x76ae]);
  (763921377457825700, [0x53f6620884498d85]);
  (764734390066150700, [0x5510]);
  (765143388591303300, [0x573080e18336]);
  (765554066786568600, [0x8d0a8d5e]);
  (765966438504954800, [0x5e38]);
  (766380517771557900, [0x8def]);
  (767213855927472400, [0x4e035fae]);
  (768901659706207500, [0x5baa61b2]);
  (769328099584853300, [0x7f8a]);
  (769756365764053400, [0x517395dc]);
  (770186473953992400, [0x517b797f7984990a]);
  (770618440068444100, [0x72ec736880b2]);
  (771052280228303900, [0x52b352de93ae9547]);
  (771488010765199500, [0x63d06649664b7dac7ef681e3]);
  (771925648225179400, [0x559c683968536c996eaa8abf8c0390e1]);
  (772365209372483200, [0x5e84838a]);
  (773250170900181500, [0x9418949f]);
  (773695605935119400, [0x539f82b18302]);
  (774143033974611600, [0x5bab5bae9ea59ea6]);
  (774592472933395500, [0x7559]);
  (775953038138973400, [0x7f6e]);
  (776410704841714500, [0x67436b0a8cdc8d50]);
  (776870475766577500, [0x4ee46bc58fce]);
  (777332370352206950, [0x4e9457f9672b]);
  (779201583653422200, [0x4e1862d4]);
  (779674397773016800, [0x5dcd5fc5958095e8]);
  (780149458048876500, [0x8d758d99]);
  (781588331794086500, [0x4f1a609f67037d717edf]);
  (782072594241665350, [0x5f92]);
  (782559213206782600, [0x5b9c675c85d5]);
  (783048211736201800, [0x5b638fd0904b93e1955c96c4]);
  (783539613216444700, [0x9ebb]);
  (784033441380503000, [0x524d]);
  (784529720314715900, [0x5f815fb591f59497]);
  (785028474465819800, [0x6d85]);
  (785529728648174200, [0x4e5455ac59e58054806f]);
  (786033508051170000, [0x545854e16590971e]);
  (786539838246824600, [0x624d]);
  (787048745197571700, [0x51e05e7e]);
  (787560255264248800, [0x51a0]);
  (788074395214290700, [0x516d]);
  (788591192230134900, [0x8a698bd796489673]);
  (789110673917845300, [0x65e07121]);
  (789632868315960500, [0x96769db49e649ed89f4a9f50]);
  (790157803904574900, [0x4e3b8ce28d24]);
  (790685509614659200, [0x90fd]);
  (791216014837628600, [0x5b54]);
  (792285543749303300, [0x54088dc38e8d]);
  (792824628612790950, [0x570657136c146c23]);
  (793366635359724900, [0x57c3]);
  (793911595836481300, [0x6768694a]);
  (794459542412943900, [0x655979f07a31]);
  (795564526031602400, [0x511258ee58ef83ab]);
  (796121630536548000, [0x4e8951b2541554425e9a722d885d]);
  (796681856091414900, [0x5341]);
  (797245237863240500, [0x54f267f373b282738277]);
  (797811811616808250, [0x5a495a776539]);
  (798954681199170600, [0x5f6966136c83]);
  (800110763439278100, [0x51ac6821]);
  (800693855470357500, [0x637785e4984f989c]);
  (801280367415597200, [0x5ead]);
  (801870339628316100, [0x521d53e353f05949]);
  (803060829878948000, [0x4e0d4e454e4c70cf90ce]);
  (803661432284969200, [0x7af9975e]);
  (804265663730565400, [0x67f1]);
  (804873568338203600, [0x5e725e79603b746474767e3d]);
  (805485191039947200, [0x4f5b4f73590486558fbd907c]);
  (806100577597385000, [0x4e1e]);
  (806719774622177000, [0x53c855805c098d8a]);
  (807342829597240700, [0x521a525b73cd8af88bf8]);
  (807969790898600200, [0x534772d78cab8d2f92fc94a2]);
  (808600707817926800, [0x4f508abc8c0a8f148f8597cb97e69ec39ec4]);
  (809235630585792600, [0x827a85dd]);
  (809874610395669800, [0x6bdb708e]);
  (810517699428698700, [0x6b657267752b827e]);
  (811164950879260400, [0x518d6881795a8944929894ed]);
  (811816418981379900, [0x53215b9e5be65f158349]);
  (812472159035995700, [0x540e59485f8c63f47080716c]);
  (813132227439131000, [0x6cab7fe0]);
  (813796681710997800, [0x4e9559b9671b]);
  (814465580526077600, [0x554662a480338b778c37]);
  (815138983744212000, [0x5f90]);
  (815816952442749800, [0x4f8d52c35e935eab805e95fb96469678]);
  (816499548949789800, [0x6731921e94a7]);
  (817186836878566000, [0x51c95bfa5de85fbd66f46dbc76d67ae0817e84cb9a30]);
  (817878881163023400, [0x543354347aef7fa48a00]);
  (818575748094632700, [0x5c0a6b2392b395109f0e]);
  (819277505360497400, [0x5165590f63a191c7]);
  (819984222082806500, [0x58a88cc88d3e]);
  (820695968859693000, [0x4e0e4ed350098207]);
  (821412817807554200, [0x4ea84f54536076f4]);
  (822134842604903000, [0x5cb3745f]);
  (822862118537811000, [0x535365d7]);
  (823594722547018200, [0x509959075dfe66066e5689c089c2901a]);
  (824332733276780500, [0x4eae]);
  (825825298298448000, [0x4eea510061ff]);
  (826580018861986300, [0x516b96cd9ece]);
  (827340478800508300, [0x53f25a1c6851]);
  (828106766075065300, [0x4e0b4e254e3456b456ed571281e882ac8aa08bda]);
  (828878970684456300, [0x52079d6c9e4f]);
  (829657184728661800, [0x4e885cad5dba6f14865a865b]);
  (830441502474764300, [0x4e308c50]);
  (831232020425475700, [0x52c753d86bbf6d6979ef7a4d8b8a]);
  (832028837390393300, [0x71df84258881]);
  (832832054560119800, [0x7b11]);
  (834458106647297800, [0x8083808589ba89c9]);
  (835281156560949300, [0x6d417d047ea6]);
  (836111036842418900, [0x5cf08212]);
  (836947861809470500, [0x51416cc9725b820d]);
  (837791748674057000, [0x5e9e71677fb29f90]);
  (838642817640847800, [0x575a580563d6970d]);
  (839501192009987000, [0x6e2170c87e697ef38272886b]);
  (840366998284298500, [0x539a5c016df1]);
  (841240366281174000, [0x594e5be87ff09042]);
  (842121429249389300, [0x593773e0785578a97ba1]);
  (843010323991114000, [0x571f838e83ca]);
  (843907190989390000, [0x4f1053bf5c975d177e2381f497f3]);
  (844812174541381800, [0x524c6d1e]);
  (846647088408201400, [0x51cc]);
  (847577327674432900, [0x52e49cf49e23]);
  (848516301709416800, [0x543e58c1606d6b478fc89081]);
  (849464176104871200, [0x4e1d7a4e7d729896]);
  (850421121206486100, [0x4e1a5189696d80038fe6]);
  (851387312297659800, [0x5bd2679c903895a39601]);
  (852362929792196400, [0x638c8c6b9756]);
  (853348159436497500, [0x59d15e025f026155757096c6]);
  (854343192521814200, [0x5951]);
  (855348226107164500, [0x547d672f67e579e6865e8853]);
  (856363463253566200, [0x5a9a]);
  (857389113270285100, [0x740f7489814a81d8]);
  (858425391973839800, [0x4e8b53435bbd5bec6dde7ae57fc58a368bc38fdf90729396950196349670]);
  (859472521960569400, [0x4e5953bb57475c6f66f97b56]);
  (860530732893623100, [0x5ff58a2d8bbe8cc08d3a]);
  (861600261805297800, [0x51e1675173af74b095bb960e]);
  (862681353415719300, [0x4f0f53ec5de762dc6c7484dd85cd9996]);
  (863774260468938400, [0x4ec64ed550d5604660526dee72359047]);
  (864879244087596900, [0x4e15697c6a136a80]);
  (865996574147409400, [0x52cb52f358585e055e255e7c61707269805a]);
  (867126529672802700, [0x4f014f175206560e59736148626c63da7387773e7d0b7eb9800c8cf48d56]);
  (868269399255165000, [0x517159dc6bd575628f498f6c907591e7948f]);
  (869425481495272700, [0x532f5ec96c478f9b946b981898869ed1]);
  (870595085471591700, [0x5178519c5cb8679d7ffc821c870089e38fb2]);
  (871778531236292000, [0x4efb60276566666890e8]);
  (872976150340963600, [0x580259345f255f4c672a67d06f2b819b8863982d]);
  (874188286394198100, [0x53f365fa6d66701b70b98087884d8fc5900a905c96b696b89ede]);
  (875415295653379600, [0x51b667ef73ed8427856d8b498bc18f1d8f899f10]);
  (877915425873921300, [0x544859d360df66fe706b79b9]);
  (879189328451664300, [0x52b252c158f0597666766c646e6f72c4807283288a9e8bed8d649aa8]);
  (880479668935255000, [0x53c253c35c9b5cf6]);
  (881786877091990300, [0x57f76267681668a268f2745c97389e9f]);
  (883111399766992400, [0x674f6b226b617fbd80158c46]);
  (884453701800206500, [0x53485c6568656a4b]);
  (885814267005784300, [0x582f5c275f03623f68c4742a743476d876e490a3]);
  (887193599219018000, [0x5c3e5d697115716575187dda7ebf]);
  (888592223416492000, [0x5b57754c7709851a8fd1]);
  (890010686915687500, [0x4f3c542b54c05e0662186230704c7763909191ce9662]);
  (891449560660897500, [0x4e5f52a152d953ca59885abd5c245ea6661476ee85cf]);
  (892909440603012800, [0x5b245b375ba27d507ed3928594dc]);
  (894390949181526900, [0x6602837784c9964d]);
  (895894736917980900, [0x5236538454b866746bd3781a786f]);
  (897421484131059800, [0x56fa5e9f5ee27d307ec6838983f18b008b1d8c0b8c228fc79022904e]);
  (898971902784656300, [0x5a555de26b21743c74ca79d8836b852d878d96c09808987b]);
  (900546738481470200, [0x4e484f55529f537f56de5b8c5ba15be95e7a5f5d8cbb8d399732]);
  (902146772616114300, [0x552f614e6563798579aa7d147eaf97d397e9]);
  (903772824703292300, [0x4eca534a5bdf74337dd27eea984d989d]);
  (905425754898413400, [0x58215ba47834853c85f98ff097f597fb]);
  (907106466730051500, [0x4e3e59585e7d5f6a5ffd6240653b6d016d0b6f5471368209]);
  (908815910065981600, [0x53705f526b786ee86ff17de97f138549886890939127]);
  (910555084337168500, [0x5c3d5de6602163016d6a76e17b807bc47c2180af830387e0901f98219889]);
  (912325042047108600, [0x53d6653e66976cbf88618b288c1f9375952e9f9c9f9f]);
  (914126892597376400, [0x4f0d59745f555f7165486a2a6a6b75337b2c7dbf7ef580968fc190779304]);
  (915961806464196000, [0x4f1168a88821]);
  (917831019765411300, [0x597d599990ed]);
  (919735839262480700, [0x5225522b5356540f6f8472ee734585218ce38db390d1912d9be89cb8]);
  (921677647848190800, [0x4e61514051b7535555ae57825c905f375f3a62f1664367d4680b68df6cca910996359663]);
  (923657910577808700, [0x554f592e70df715972b672c076847e617ee380d68a548bcf95ee]);
  (925678181309560700, [0x5ab35f1f6c426f5b6f5c723d793e79bb7a0b801084638b708bae96e298029876]);
  (927740110029834300, [0x4e195916610f658c66f2672d6f5872d076867d177eb190029069]);
  (929845450949617600, [0x5d165f0b659765e66c9f6e9d70ed71b18346834a968f969096a896b197f69b25]);
  (931996071471713900, [0x54045ed6670d6cdb6f6e840d9762]);
  (934193962143591400, [0x4e244e58516954c15578562f5ac25e785f8568436e7e7063718a72367cfb89d28b938ba98cea8d28]);
  (936441247728797200, [0x50195de1633a67346a38747e795d79817e467f2a891a9645969b98df]);
  (938740199551267200, [0x50855a075b0c6c9b6db57e0884268f098f7d]);
  (941093249292286600, [0x4e134ed84f7f538953b25c085cea6297652f6a216b4c714c7b1b886588dc8fb0]);
  (943503004450192700, [0x514552005378574e5e995edf5f535f7c68fa748b7565757677ff79267b717d107ebd80e58b028c138ca18d229102]);
  (945972265709229800, [0x5f6d6b326df36f3176d08446859b86e49df99e709e7d]);
  (948504046507658800, [0x4e704f5951a253d7585a5c4f5fc6607a60b2613761b6650068506f6d6f8d75af760b773c7fa17fa886c78a188bb08cb7; 0x9918]);
  (951101595147984800, [0x53d95bc56518655865e8683768af69866a236caa6ea56eec7a747c8983bd964796b49a2b9a9e9b5a9c579c7c9cde]);
  (953768419856201000, [0x4e8657e05cfb5f7b5fb96772677f68076a1970c2721b79fb7de37f18848b85238aed8c1592c194dd95d09617966996aa; 0x96ef]);
  (956508317275012500, [0x5e87660a665666896c5c6d597afa7bc0800582828587]);
  (959325404971682000, [0x50a851325bb05f7061cb62bc630967ab690d69536c606d3e6ed56f41776679be7a9d7aa97d8f7ee582d48f458f959274; 0x945196be96e3988d]);
  (962224158659007300, [0x4e60542c5eb5606f6c576d326d5a6de16f47701f7b497fd2803f807d813881c9845185848a5e8bcd8eab8fa39ed4]);
  (965209454973975400, [0x57df5b695b855ba05bf55bfc5c0e5e1b608560a662e564c166f0681768676a9c6f2a72fb72fc775b796085e98aeb8c0f; 0x8fb9908a9813987f]);
  (968286620840650700, [0x5a035c165de56234629863a263a5662f6761689d7334753779417d447d617e417ec47edc810881098a318bb88ca28d21; 0x8de18ed28f698ff99b549e92]);
  (971461490672108900, [0x4ea4533b53865587588362ff670b6b776fb3726274dc7fd4806a807083dc854a88548a138bad8eca8f669009907891ab; 0x929c939495559f13]);
  (974740472954408000, [0x51fb52bf52e2594f59ec5c5e5c6c5f2662366237630764ca6b276b506e106e206f38751c7db17eb27fc1821f90b19f61; 0x9f84]);
  (978130628121976100, [0x4e384edd4f604fde51af5398572d5bbf5bfb5c0b6070636263db68f16b466c8173ab7a3b7c92812b81318cbd8d3b8df5; 0x8e108f158f7b9636968e9867987e99ae]);
  (981639760103103000, [0x593a596a59ca5b99606260c5620e653665e9693f6b676c88707f709c715271e671ee74697b2680a0817883b9843d8574; 0x857e860a932294b1959395f497169a0e9a919aef]);
  (985276524520190500, [0x4e1b52c953e25ae95c605f3c5f6260bc658b676d796f798e7cd6870292d2950b9f4b]);
  (989050557318475200, [0x52305e265e365e7460e761fc65cb662066dc66e66ce56e386ea27422753b756b7b517bc97ca47cb580e4833583ba904a; 0x919291cf9214949e9ce59daf9e1f]);
  (992972628633803300, [0x4ed1500d5177517c530556685b5a5d195fd2610862e9649264c765cf6f5e716673b073fe74037cb97e3e7e8c7ee97eed; 0x80c681bd8292829982d78305869588368b6f8bd18cc78d0f8d448d6299ff9a659a8f9aa5]);
  (997054828085828900, [0x502951dd51fa521b527552ff574a5b9b5bc75c9a5d50627662db6cb96cfc6dd86f51731b73ae744b7ade7af67bad88ab; 0x8b398c28923494c3971c9803987798c498d89e93]);
  (1001310789527708400, [0x50d652a852d5547c57085b645bf95c0d5c39620a64ce64d265706578664f6735673a67da6a5f6da76e2f6ece6f97732b; 0x7701788e794880a980cc836587768c938f9f90c195e2970697699b31]);
  (1005755965784791800, [0x4f834fa75074534f5354561759545a675c1d5f135f79608962b167c46cd36d456d886d9b6dfa6fe47a577d797ee2846d; 0x866b867987f28cde8d4f90bb913091529704981098849bae9c9c]);
  (1010407967348281100, [0x4ed44f18512a526f52fa537356e256f4570d571859d459da5c415c4b5ce55d226bb76c766cd76ce86dfb748776fc7d68; 0x7ed27f557ffb82bd84ec85fb8b5c8c3196de96fe97279811987d99d59a7e9e21]);
  (1015286983765224300, [0x517d5375541f576a5a9b5dfd5faa655166316746680e687f6adf6b626ecb6ee9705873787a057a0e821e822a840c86d9; 0x874987ec8ce68d4b902090ba913491d7948a9701973d]);
  (1020416313203979400, [0x5076518053a553eb582a591c5d145deb665f671467566b8a6c6a70ef7237723a796d7a7a7df47ec3815482d182fb95a9; 0x95ca95fd96149655965d980c9882]);
  (1025823035331007000, [0x4eab51c053c954395473550756345bb45cb75ce15cfd5f80601260ca629563886557659c665a66ae68cb69fd6c416de6; 0x6de8730e7375769678c17a007a337a69817f82e68981898f89c48a718b808bdd8bfb8d1b8d258d6395d5961999d29a5a; 0x9a79]);
  (1031538876715001900, [0x4ef04fed510951a5523a54105792583158d85c915e8f5f045f845f9160f362a56398655667816784684c6960697569cb; 0x6d3b6d516d6e6e146e3e6e5b6f017b037be47c7b7e097e317e477eb57f197f72807f810a82cc83398407884088d48ddf; 0x8fd8908491dd92ae947e9488958395ea983b985e98919b919c8d]);
  (1037601338896645200, [0x4f384f70503e50be518a518c51fd520357d45bb85cab6101624b632563ee65626740675067ff68386bba6da46ec76ecc; 0x706f70bc7126714971c876c6793a7db27f3d7f5180a183178471852587748b5a8c2d94b599b39a70]);
  (1044055191010402500, [0x4eff537754ac56365742575b578b582458a958c75a765b385c046253671f69126cb86e1a6eb673ba742e749074bd7814; 0x7b147b467b547e937f28804c8077830e8352839687ba88578a618a628acb8be28be98bf78cc18d329753975a978d]);
  (1050954478159097500, [0x4fd74ff852245382573a58345938594b596e5e905ee05eec60dc616e62c265f766e068d268d5690169e86b7b6d3d6d89; 0x6d94701a70e770f771d27247745b75357816789778da7adf7db87eb681c2823982af82cd834084bc8651871c8a878f38; 0x8f938fed9057907a9650965f96fb]);
  (1058365275374469800, [0x4e4e4ea74fbf4fc452a9538555b756745be15c425c645df25ef36050607660e162ab62e6651465e2669167956d4a6da8; 0x6eaf6f326fc1708570bd71be752282b7831c8343874e880d8ad28b168b588bc68c058c218cda8d498edf8f6f8f9e8fad; 0x9006909591ca91cb93829541962e9632]);
  (1066369546141823400, [0x4fc14fe3516e51c652fb530053e057c25875588959315986599d59ff5c185e2d62416280629162d3665466c467156749; 0x679067ec68ad68c069d06aa26b8b6b986cbe6cf36d3c6d536de46e966e9c6ed46fc370ab7109725f7261756a758a77bb; 0x78e87aaa7bb17c417c5f7c7d7d737edb816e82a685aa86068a088a2a8a528ba18bbf8bd28d678f2f8f918fe48ffd9000; 0x904f90b5914d923a925b9472947d94b094bb94c59576980598799a459a719d5d9e45]);
  (1075070683840786300, [0x4e084ebf4ec04ec74ef7501a50f9510451bb51cd53a65524559a5703589f58d15a085a745b305b4c5c485d295e555ec8; 0x6055621a655b65746582675f67d8686668976a3a6c5b6c926ca16cc46ce16d296d8c6df76e676fc07281749e752c7586; 0x76ea7891795c79e97e5e7e8f7ed57f207fb97fd87ff9822c8230826682c783618457846684b2860588ad897289bd89c8; 0x90a2925e944494ba94f89592959495f295f5961f968a99a599a89b429d239dd79e1e9e259e2a9e3e]);
  (1084601701821218900, [0x4ed64f194ff1503c5154519551b3520a52ad5352540a544659255c315d0e5fcd611a654566b4678b68c96c7a6c856d74; 0x70db71ed740974d274da754f76c276df77407825785d79017b337da27e797e887ece7ef87f2c8089811a817382b985b0; 0x86cb88c288c588dd8ca08d1f9301951e99529976]);
  (1095137753387001600, [0x4f97521153e9563b578657a357ad57e1585758da596059cd59d75a055a6d5b345e3d604b61626200657765bc664166ff; 0x697969ff6c226c2b6c826c896d8270767119716e733774f7758f7a3d7a817aff7d277d9c7dca7e547ec77efc7f6980a5; 0x80f18235867e876688f48a738a898b668b7d8be68c828ce48d31943894ce96bd96cb98129881]);
  (1106916056952639800, [0x4e264ef65012505c51ed526a529d52b152f552f859155b095b935c795de95df15e765ea75fd95feb601c6190619162d6; 0x635f640d65936595660068c268da69776afa6c326c336cbc6dc76eda6ee66efe6f8e6fe0706473a273a973ca742c7591; 0x77eb77ef783a78ca792a7b607cae7ce77e6a7ed880388058807384df858a88c189b289d08a938ad68b598bba8c2f8c8c; 0x8d088d608efb8f72901e903c9644966a978f97a09d609df29e1a9e449e669e6b]);
  (1120269196215092000, [0x4e104f244f344f4d4fc54fd04fdf50b250b751fc586b59875a665c825df75e615ffb610d62d062f4655e660f680f68d8; 0x68f56b046c396c906d786d9e6dd66df670ac70e67169719472b97336741b743074ee7515772077ed78ec78f77a977b5b; 0x7b977be97d137d667dbd7ebe7ed97ef07f427f4c7fce8017837b839e840384bf88458b018c128c48900f90b9911291c1; 0x9226929392c793ac9463949b94a194e8955095739586958f95b195eb95f0960596f69ae69bc99ca49f949f9a]);
  (1135684264197818000, [0x4ea24fa04fe0504753715374537b5413544a54c454cd54d7562956875830591f592059ae5a345ad45afb5b2a5ba65bb5; 0x5bd35bf85c7f5ca25cd95ce45da05dbc5f315f955fa0600e6016606860a060d161a8628a6311633d6484651666156628; 0x6664670067a3682a684068d76957698469956a0a6a316afb6b166c726d046d176d526dcb6ef86fc26fe1711a718f732a; 0x751a757f76d276f278097aa67ac77cb17e967ea48042807680f882b8839383c18a558bc48c6c8cac8cfe8d238d5c8ff7; 0x9017924992519354938f93c894c294c994fe953795e1961096cf96db97d997ea97ff9a629a6a9a749a8a]);
  (1153916419877213400, [0x4e114ede4f304f4f50ac515a524a52ab52be52d0533a53405438585159575ae65c7a5cc15ce65d345dd260ac60f961f8; 0x6211625162d262ef641c64b266366657679a68866a3d6bcb6ca36e1d6e6b6fd270157043719271c3739673cf74f6768b; 0x773a77bf789f78d07a377b7e7bab7c2b7c3d7ce07d3a7ec07f6a7fe5826e835a836783a284c4859c88d888d98a728aa6; 0x8be58bf58df38e0f8f058f829016907f90dd9187919c9315951f972d97449773980a987c9d3f9e3d9ee8]);
  (1176230775008634300, [0x4f1e4f2a5021502a507d509850bb50f551f051f8530f544054ea55bb592d595a598d5acc5df35e2e5e6b5ebe60016094; 0x60d5614b62126229622c631a63aa63b0646f647964cd6591667e66a267f467f56805683e686268b36968697869ad6a79; 0x6ad36b126ca56cef6d356d4b6e236e2c6f026f3e6f88701d707070b8714a728072c273d9741074287463749c75457554; 0x75f4762677db7a707ad67b3c7b507c6080c1810581ed82c882e38347835083a883b384618494855985a685f68859886c; 0x889688fc8936896f899389c58a798ac78b108c088c278c4e8cbc8d348d748d818e6c9059906591d892099210924592c5; 0x931a93d7942e9489949c94a094a494ee94ff950c957095ad95c895f195fe969796bc984698979a019a379a579a8b9a8c; 0x9a9a9ebc]);
  (1204998982253812500, [0x4e2a4e564e934ec54f434f76500b505550c550cf51b552d8534953e6545c549a54c9556c55a755c755da561f57095740; 0x57845793586c58df5983599e5ab85ae35bc25f0860426084608c60af613f61ab621f6247626365ec65f1665266ec6753; 0x6760677c67d368006813683d686868946905693d699c69ca69d369f36a596b206b6a6b876ba46beb6c276cc16d126d54; 0x6d606da96dcc6de56e0c6ed16f6f6f806fee7051707c708970ca70e871c172067210723972967329746d759976787741; 0x775c77dc78b0794079b37c9f7d067e737ea17f307f347f507f617f817f88808681fb8338836683c084fc8537853a8572; 0x859485dc85fa860486388662868a86df87088822886e889e88f98aaa8af18bb38bf48dbc8ecb8f678fc28fe59001900b; 0x9050908090979227923f92e4931b935b943e947094a594aa94bf9504951b953b958e95ac95cc95f39606961196c99700; 0x97c197de97eb985898f2996e99809a419a649a9c9aa79b1f9b489d1b9e339f3b]);
  (1245545493064628900, [0x4ec94f364f634fa84fcf501c502c505a50ad50d151995212524052675269527452835287529e52a352f05306535e53df; 0x53ee53f754365450547554aa54ff557b558a5750583559a459dd59fb5a1b5a315a325aa75af15b195b555b7a5beb5c81; 0x5d585d5b5db85e015e635e7b5e955ea55eb65eb85ee95eea5f885fe4607d60f26127612b6168617761d261f6620d622a; 0x6233629662a262c662cd62d762e3632a636763ac63c06436643a64ae64bc651c659f65ab65ad65b7668266ab67266773; 0x67b86864690b69bf6a176a3e6b646b726c556c7e6cbd6ce06cfa6d0c6d196d336d6f6d936d9d6dab6e326e346e4d6e86; 0x6f336f626f7c6f876fef6ffc704f705d709270957131714e715e71a871ce7230731773c873e77477748174a675047574; 0x7587769976cf76de770b772f7787783b7840787c790e793179ba79d279e379e77a777a887aae7b0f7b197b257ba97c6e; 0x7e6d7fe17fe9801881ba827d82df832783e583fd8411841d847584af84c1853d857b863f865f875988f389e689f88a6d; 0x8ab08af68b9c8be18c018c0c8c208cb28ce18d408d538f2a8f6e8fa68fdd900d905590889215923e926c928e931993b5; 0x93c393d8942b94ae94bc94c095319535954c9553955e95a196029698970f973997cc97dc97e797ec9801985398659875; 0x989b98a298af98d299979a0f9a559a849a909b2f9e1b9e73]);
  (1314860211120623400, [0x4e5c4ecd4f5a4f914fa64faa4fce4fea5075508050fb51155137514d51565157519151c751db51dc525652d652d7533e; 0x540154a654a754af54ed54fa5531554a558355bd55e5560d56f0573b57a057a458f9594259505956599759a959b25a0c; 0x5a135a755aaa5abc5af55b0b5b955be55bf05c995ced5d035d0d5d475d4b5db45e195e1c5e275e375e405e455e5f5e97; 0x5f575fdd5ff1604d607b607f60fb618e61e662216248627062fc62fe631e6342636e63a963e163fd640f6420643d64bb; 0x64da64fe652c654965c565e765ee66a86742676a677567a767d167dd6809684568546898693069636966696b69876adb; 0x6aec6bb56bcf6c056ca46ca76cee6cf16d076d276d436d486d636d796daf6e3a6e436e5e6e5f6e6e6e856e9f6ec46ed3; 0x6ee26ef46f1a6f466f786f8c6fa76ffa70057011702070c170c370d870d970e970eb70f47113712f7184719871a071d9; 0x71f4720d7238723f72f072f87319734e7372739173ee745a74a374a9755b76bf76fe772d776c7779778577e978027830; 0x7893789a797779b17a177a987ad97b157b1e7b4f7b5d7b677b8f7c3f7c727caa7cde7d077d097d5d7d837dd77df97ea5; 0x7eab7ed47ee17f037f077fbf7ff180438046804a80c480ef80fa81c18202820a822b8238828a828f82a582a982ae82d3; 0x82f9830f83338351835f8392839883a983b783d883e1843884b884d38539853b858885c9860b861e862286ce8823887f; 0x895f89838a078a0a8a168a638a988aa88ad78b208bab8baf8be38bf18bf28c028c238c798d708da38e818eeb8f4d8f54; 0x8f788f998f9a90219068906e90b090c590e290e690ef90f491489163916591ae91f99200920192049291929a92a392b9; 0x9306932093339347934b936c937a937e93dd93f594279433943a947c949594ab94ad94af94db94e394e794eb94f79505; 0x9508950f951695179523952d953095349539953a9558956d95b6960a964c9668969596b996dc97ed992e9945999299f1; 0x9a449a4d9a819a869aa29b419b449c3b9cd79d269d519dfa9e1d9e2f9e429e439e6d9e88])
].
(** prob_emit.go:72484-72855 probEmit, state 328 *)
Definition emit_328 : list (Z * list Z) := [
  (75932796583124260, [0x81ea]);
  (293626787199595630, [0x5c45]);
  (306464903864416300, [0x9ad8]);
  (387386839045686230, [0x6210]);
  (407796374680037750, [0x6709]);
  (431855421171830840, [0x65af]);
  (432658638341557200, [0x6587]);
  (436774445590907940, [0x79cb]);
  (441066950062611300, [0x65b0]);
  (441948013030826800, [0x5c14723e9f4a9f50]);
  (443733774770827500, [0x5b97]);
  (448342885490854200, [0x59e5]);
  (454169776303251800, [0x667a]);
  (456190047035003800, [0x9577957f]);
  (495721320699418400, [0x56fd570b]);
  (497248067912497200, [0x51b2885d]);
  (498798486566093800, [0x5929665366c9]);
  (500373322262907650, [0x5efa]);
  (501973356397551700, [0x9053]);
  (508642493847419000, [0x6d77]);
  (517657603546848750, [0x9633967d]);
  (519562423043918200, [0x6bc5]);
  (521504231629628400, [0x5149]);
  (525504765090998200, [0x7199]);
  (534020545925028900, [0x54115c71]);
  (536267831510234850, [0x69ae8363]);
  (543329588231630100, [0x5bc567286b65]);
  (545798849490667300, [0x4f2f]);
  (550928178929422300, [0x4e16]);
  (553595003637638500, [0x59276b63]);
  (562050742440444750, [0x514b65ed]);
  (565036038755412900, [0x7a3c]);
  (574567056735845400, [0x4e00]);
  (577957211903413500, [0x5168]);
  (581466343884540600, [0x6c386d4e6fdf97dc97ec99ac9a6c]);
  (585103108301628000, [0x5fd7]);
  (588877141099912700, [0x5b50]);
  (592799212415240800, [0x4f5c65b9]);
  (596881411867266400, [0x5f3c68e3]);
  (605582549566229300, [0x7fb2]);
  (610234551129718650, [0x797f7984]);
  (615113567546661900, [0x607a61376cbb]);
  (620242896985416900, [0x598365666dd1807f]);
  (631365460496439300, [0x535c5fb768656a4b8fd1]);
  (637427922678082800, [0x534e672c738983ef]);
  (643881774791839940, [0x51765c0f]);
  (650781061940535000, [0x4e9196f2]);
  (658191859155907300, [0x7d447da07ec47eff8c37]);
  (666196129923260900, [0x529b5b5d67f17acb8fbe9054]);
  (674897267622223800, [0x53cc5e736df56e0a96d9]);
  (684428285602656300, [0x5bb6671d82f1]);
  (694964337168439000, [0x4e2d522953eb5b9d5bf6677f6c496f22752888d5]);
  (706742640734077400, [0x516c52dd53f3541b5de75fc3798f7a1a80dc]);
  (720095779996529600, [0x514651745c55770182088cab8d2f9418949f9707]);
  (735510847979255460, [0x4f1f5049542f555f55e365e5661f662f672a738479c0808793269526978d9f0e]);
  (753743003658650900, [0x4e0951a053d154f25cb15e7f5ee368426cf3767c7d937ecf9d6c9e4f]);
  (776057358790071800, [0x4e9a4e9e4ee54fca521952475353548c5f186108627f695a6c5d76f87f8e826f827a85dd864e8a088ba191cd91d19435; 0x944494c194f89752]);
  (804825566035249900, [0x4e3d4e664eff514351b657065713594e5b885baa5bcc5cb85ef65f375f3a61b2632f65a466f867346a387a7a7e7c7ee7; 0x800082b883b284ee8ff09806987a9cf49e239e97]);
  (845372076846066500, [0x4e074e1c4e5d4e614eac4ed951ac5251528d531653d45b665b785b875b895b8f5c825c905fe0600061f7653f655965f6; 0x660e66136642671b677167f36e90795679c97d397dbf7ecd7ef5805e81f4836b842c852d89e38c488cb48d358fdb9032; 0x910995fb967596ea]);
  (914686794902061000, [0x4e594e8e4ee34ef24f544f734f83511251cc52a152d9531753435360536b548f57ce58eb5a1f5b635b9a5ca95e945ead; 0x5fbd5fcd601d6046605261c9624d656365bc65e06625663e66d9679768116a396a506b236c116c726caa6d456dfa6e05; 0x6eec6f1470b371157121716572ec7368738b752b76ca76db7b517bc97d147dba7eaf7eee7f577f85800c80b282d7884c; 0x885b8a608d7790029042906996369686968e96c49759975c975e986f98a898ce999699a59b419db49e649edb])
].
(** prob_emit.go:72856-73307 probEmit, state 329 *)
Definition emit_329 : list (Z * list Z) := [
  (209599557881003750, [0x5c14723e]);
  (258850635687263340, [0x65af]);
  (283191560564642630, [0x88e191cc]);
  (316964847905608370, [0x62c9]);
  (360707593786720660, [0x514b]);
  (380074367104846300, [0x99ac9a6c]);
  (383450215097341740, [0x7279]);
  (397727290713791340, [0x9ed8]);
  (398472635779249400, [0x7f55]);
  (409815479869836300, [0x591a]);
  (420724666196904700, [0x58eb]);
  (422611514627343000, [0x5fb7]);
  (430536451792757100, [0x592b]);
  (431572730496311800, [0x5df4]);
  (431920556933944200, [0x7dad7ef4]);
  (435828691938191300, [0x7f577f85]);
  (436191668743249200, [0x5229]);
  (438770080458820600, [0x5e03]);
  (456704173324402300, [0x6587]);
  (462682965162299600, [0x5c3c]);
  (463158025438159450, [0x6d1b]);
  (471082962603573500, [0x4ec0]);
  (472641435705243300, [0x683c]);
  (478573093420885250, [0x897f]);
  (479130197925830800, [0x7c73]);
  (488493758429230100, [0x53e4]);
  (489109144986667900, [0x8c9d8d1d]);
  (489728342011460000, [0x4f0a6069]);
  (491609275207209600, [0x74e6]);
  (496140794828413900, [0x4f2f]);
  (500887448552306200, [0x5170862d]);
  (502286072749780200, [0x54c883f2]);
  (502992789472089500, [0x57ce]);
  (506603289936301150, [0x4e9a4e9e]);
  (508833865687730900, [0x535c96f7]);
  (510349046189791200, [0x745f]);
  (514240587814758500, [0x675c]);
  (520800316063339900, [0x592a]);
  (522509759399269850, [0x8fea]);
  (523375565673581300, [0x79d1]);
  (526018891380396900, [0x8fbe9054]);
  (528733990286991950, [0x62586613]);
  (531524869098699600, [0x6717]);
  (532472743494154000, [0x8afe8bfa]);
  (536356726825780400, [0x666e]);
  (540397680659568000, [0x83b1840a]);
  (542481089349852200, [0x5361]);
  (547887811476879800, [0x5341]);
  (551277966644447900, [0x5854]);
  (553603652860874700, [0x6b66]);
  (554787098625575000, [0x6ce2]);
  (555984717730246600, [0x59655967]);
  (557196853783481050, [0x5149963f]);
  (562197895840947100, [0x52d25b5d]);
  (568822834395067200, [0x5217]);
  (573019254304970450, [0x7d0d7eb3]);
  (574458128050180400, [0x8482]);
  (575918007992295700, [0x83ab]);
  (577399516570809700, [0x4e3d9e97]);
  (580430051520342600, [0x5e156bd4]);
  (581980470173939150, [0x5766]);
  (585155340005397200, [0x91d1]);
  (586781392092575200, [0x52b352de67978036]);
  (591824477455264400, [0x6e7f6fd5]);
  (595333609436391400, [0x672b]);
  (597135459986659300, [0x6d859b6f9c81]);
  (600839587154694100, [0x842885a997cb97e6]);
  (602744406651763600, [0x5e748328]);
  (606666477967091700, [0x54e5]);
  (608686748698843700, [0x5f9798019875]);
  (615004638860996800, [0x57fa]);
  (617202529532874300, [0x52a056e059c68fc89081]);
  (619449815118080200, [0x4e1c57c36771]);
  (621748766940550100, [0x585e59515ec95f5375768cfd8d5b]);
  (624101816681569500, [0x56fe5716]);
  (626511571839475500, [0x65b089ba89c9]);
  (628980833098512700, [0x6cf0]);
  (631512613896941700, [0x54097687]);
  (634110162537267700, [0x4e4c5e955f17620870cf798f]);
  (642333972360965000, [0x76ae]);
  (645232726048290100, [0x4f26502b592770c8]);
  (648218022363258300, [0x551065e5]);
  (651295188229933700, [0x5e0c66fc]);
  (657749040343690800, [0x4ee3590f]);
  (661139195511258900, [0x516751857ff082cf8607]);
  (664648327492386000, [0x90a3]);
  (668285091909473400, [0x531753865e935eab6b776cbb]);
  (675981196023086300, [0x5c7190a696c5]);
  (680063395475111800, [0x5207]);
  (684319356916991300, [0x5404594768398499]);
  (688764533174074800, [0x5f7c88598d6b]);
  (693416534737564000, [0x4e0051796248660e6fb3722a8332838e]);
  (698295551154507250, [0x7d22]);
  (703424880593262300, [0x536276e7958095e8]);
  (708831602720289800, [0x53575a015bbe65b98cd38fde9023]);
  (714547444104284700, [0x4e5455ac63d08cf48d56]);
  (720609906285928200, [0x4f9d516d5b815bab5bae5be7626c63da67e589448def97629ad8]);
  (727063758399685300, [0x52aa624e6cd5]);
  (733963045548380500, [0x5384541554425b897a4683058b1d8c228cbb8d39]);
  (741373842763752700, [0x53ef68856c496f2296759759975c]);
  (749378113531106300, [0x4e706d777d2083028cb7]);
  (758079251230069200, [0x50435e845f7b5fb96602672a6c9980428076820d82d7838a8f9b]);
  (767610269210501800, [0x4e0151e15f9262106728675190e1]);
  (778146320776284400, [0x59cb5a1868ee80af900a905c]);
  (789924624341922800, [0x4e075bc6637764696563739b746a842c90ce]);
  (803277763604375000, [0x4f0d574e5b5c5b5f5e9f5ee2672c679c6c837389767b777f7a7a85cf8a698bd78ff7]);
  (818692831587100800, [0x4e0a4f695e73600061f76492817082f1]);
  (836924987266496200, [0x534e535a5b505c0f5e725e79671b73ca7d047ea683ef]);
  (859239342397917300, [0x51ef51f152dd53f2543354345b635c4b6dc470ed71b174dc7b5480dc9686970d9f4a9f50]);
  (888007549643095300, [0x4e0d4eba5225522b529b5347540e5580594e59ae5b595b6b5ed65f005f8c65bd6ed573ed745e7533795e7a9d7aa9826f; 0x829982b1888b958b]);
  (928554060453911800, [0x4e164ec14f505219524753f05b545bb65e7d5eb75fbd611b624d662d677e68116a396c5f7075723173c07433752b7565; 0x7d027d107ea37ebd800381f48389841d863f90fd932f95199748]);
  (997868778509906400, [0x4e184e1d4e304e494e614f5b509150d65188541056fd570b5723582f5ba35baa5bcc5c245c275c9b5ca15cf65e9e601d; 0x61b26590663e666f677067d068516b476cb36e056e216f58743474597530771f795a7b2c7b567d727dec7f057fa98056; 0x8083808580b280e1814a81d8864e8a798c508cb48d0a8d358d5e8d67910993189524986f9f90])
].
(** prob_emit.go:73308-75056 probEmit, state 330 *)
Definition emit_330 : list (Z * list Z) := [
  (359318747651462800, [0x5c14723e]);
  (361282311310226000, [0x65af]);
  (369348442245155000, [0x5927]);
  (373001325885916970, [0x5229]);
  (380232366197684700, [0x62c9]);
  (382733613162692960, [0x897f]);
  (395671943383739000, [0x5730]);
  (395757772931536560, [0x5357]);
  (399823516012584030, [0x7f577f85]);
  (408000833336829600, [0x5dde]);
  (420955477495900300, [0x6d77]);
  (422873894572621540, [0x5c3c]);
  (438729119013388500, [0x5c71]);
  (442603695670972700, [0x5e73]);
  (443596259650969700, [0x548c]);
  (451132889994115900, [0x88e191cc]);
  (456692436071152800, [0x52a0]);
  (460885246263696500, [0x5171]);
  (460951144124400800, [0x6c5f]);
  (468834635299800500, [0x534e83ef]);
  (471253089211180700, [0x6c11]);
  (471399341522441800, [0x5317]);
  (476119318721898400, [0x4eba]);
  (476812162140094800, [0x4e1c6771]);
  (478369219677637100, [0x514b]);
  (481436578257490400, [0x9633967d]);
  (485608151508708000, [0x6cbb]);
  (488474657933670400, [0x81ea]);
  (488909630346317000, [0x5b89]);
  (490447108468448300, [0x6bd4]);
  (491873793389511800, [0x73ed]);
  (499814471149952850, [0x8499]);
  (501778206319827400, [0x54c8]);
  (502125860009936400, [0x7279]);
  (505310359578028600, [0x9ad8]);
  (506342893273811900, [0x99ac9a6c]);
  (507911963121747200, [0x9f8d9f99]);
  (508387525444703900, [0x683c]);
  (510096968780634000, [0x4e9a4e9e]);
  (510908441991940800, [0x62ff]);
  (513216236720195250, [0x6cb3]);
  (513717770231768500, [0x4eac]);
  (517011651203010600, [0x7dad7ef4]);
  (522530702240865600, [0x5170862d]);
  (524067775232259200, [0x9b6f9c81]);
  (525754788062607700, [0x65cf]);
  (527791777653915200, [0x4e2d]);
  (528826046731360700, [0x5ea6]);
  (529477939522342300, [0x5bb6]);
  (533617382300950400, [0x672c]);
  (533685571870588900, [0x5e03]);
  (535822847295876400, [0x85cf]);
  (537509464929967200, [0x53e4]);
  (539080925839814200, [0x6d1b]);
  (539369318253104700, [0x7f8e]);
  (539441546497487100, [0x5b815be7]);
  (541117359850101900, [0x5fb7]);
  (542821736046431200, [0x6728]);
  (543346278275737400, [0x5ddd]);
  (545933941683604200, [0x4f26502b]);
  (547487974511994700, [0x958095e8]);
  (550589614790794450, [0x8fbe9054]);
  (551237915278602200, [0x51675185]);
  (551890446142094500, [0x6c99]);
  (557615915408444100, [0x5df4]);
  (559452434012447950, [0x803382cf8607]);
  (559540734238935760, [0x52d2]);
  (561053891725826700, [0x57ce]);
  (561143618066525600, [0x6797]);
  (562135958189898300, [0x5733]);
  (562863895890188500, [0x585e]);
  (563873541915289400, [0x842885a9]);
  (564893485852178800, [0x534a]);
  (565923939935060200, [0x4f2f]);
  (566301298873424100, [0x4e09]);
  (567346439028194900, [0x6d41]);
  (568983451992880400, [0x56fd570b]);
  (573653948100531900, [0x591a]);
  (577384950796640800, [0x6e7e7063]);
  (577808231851902800, [0x76c6]);
  (587137967916823000, [0x89d2]);
  (593630632373392200, [0x7d0d7eb3]);
  (594003999328597100, [0x58eb]);
  (595132537951763750, [0x5bcc]);
  (596019180872327950, [0x53f0]);
  (596146488337007700, [0x5f97]);
  (597299608096926700, [0x82b1]);
  (597557672756275900, [0x8272]);
  (599778534771503700, [0x4f866765]);
  (600043085190346100, [0x5409]);
  (600974562317800800, [0x7259]);
  (601108341601966900, [0x51748208]);
  (604928724343143900, [0x6c34]);
  (607606826610908100, [0x6839]);
  (608611860196258300, [0x7c73]);
  (609627097342660000, [0x90fd]);
  (610947732824021100, [0x4ed15d19]);
  (612886645167605200, [0x8404]);
  (617195003781236400, [0x57fa]);
  (618142878176690800, [0x5e0c]);
  (618460843468428700, [0x8fde9023]);
  (618939695141608400, [0x4e01]);
  (621205164198089000, [0x5f8b]);
  (624533258374638760, [0x7684]);
  (625042165325385800, [0x66fc]);
  (625896141480199300, [0x7269]);
  (628326816702615400, [0x4fc4]);
  (628855452294930300, [0x4e9153e396f2]);
  (629386897301279550, [0x660e]);
  (632819935429654300, [0x4e5f]);
  (633003928121855000, [0x610f]);
  (633929004099070200, [0x5e725e79]);
  (634488185425647900, [0x5386571f6b77]);
  (635238657991054700, [0x5a01]);
  (636565691683144300, [0x4f10]);
  (636756713708756300, [0x5efa]);
  (638882397611297750, [0x6d25]);
  (639470058460196300, [0x7fa4]);
  (640061193186502000, [0x74e6]);
  (640457233308111700, [0x65e56b66]);
  (641454250540096700, [0x535a767d]);
  (641855857505585700, [0x8054806f]);
  (642461308396456300, [0x539f]);
  (642866988466017700, [0x5854]);
  (643683319529933850, [0x76db]);
  (645128133104672400, [0x5225522b]);
  (645544800374157000, [0x5e866176]);
  (645963211026414450, [0x6d32]);
  (646594127945740900, [0x9675]);
  (647654583270620600, [0x4ec0]);
  (647868030523483900, [0x5c01]);
  (649158371007074650, [0x54e5]);
  (653583871907478700, [0x5e1d]);
  (653810372570564000, [0x5766]);
  (654264918807731450, [0x6c496f22]);
  (654950635780345200, [0x884c]);
  (655872301290837500, [0x6d66]);
  (657505943222806900, [0x5676]);
  (658214328711647400, [0x9ece]);
  (660855538665625100, [0x77f3]);
  (661343344510968400, [0x5217]);
  (661588142674832400, [0x6d0b]);
  (662079544155075300, [0x7b2c91d1]);
  (662326153404594600, [0x65b0]);
  (663318717384591700, [0x5e02798f8fd0904b]);
  (663818718426262200, [0x5fbd]);
  (664826283625136400, [0x53ca]);
  (666100186202879400, [0x7586]);
  (667131123168765500, [0x56ed5712]);
  (667911361197183950, [0x963f]);
  (668697734843205450, [0x5b9a]);
  (669490341370447500, [0x4e0d]);
  (671906566298355500, [0x83b1840a]);
  (672178675309791500, [0x51798332]);
  (672451526775111900, [0x6851]);
  (672725124756999400, [0x8def]);
  (674104456970233000, [0x51767687]);
  (674382621266420700, [0x739b746a]);
  (674661561475178600, [0x57d4]);
  (675785168801871100, [0x5580]);
  (676351742555438800, [0x516c]);
  (677207667895005800, [0x517395dc]);
  (678650694377908700, [0x6e56]);
  (679526612386896900, [0x6cca7d307ec6]);
  (680706567080012400, [0x5858]);
  (681900611117204200, [0x4e495f7c7fa9]);
  (682805594669195950, [0x80838085]);
  (684025121978577800, [0x4e39]);
  (685570747802246900, [0x6cf0]);
  (685882760535871300, [0x4f0a660c]);
  (688735568897325100, [0x666e]);
  (689380732425474000, [0x4e619109]);
  (689704881817891100, [0x4e3b]);
  (690356349920010450, [0x5934982d]);
  (692336612649628400, [0x592a]);
  (693678914682842500, [0x5b5067cf]);
  (694017324481266600, [0x5316]);
  (697817436299128000, [0x6cfd6fa4]);
  (699593681933112000, [0x5361]);
  (700674773543533600, [0x6e2f]);
  (701402049476441600, [0x725b]);
  (702502978027278500, [0x738b]);
  (702872664215411100, [0x5c9b5cf690a3]);
  (703243722155064600, [0x745e]);
  (703989994275223600, [0x5e935eab]);
  (704365229237078700, [0x6dee]);
  (705119949800616900, [0x98029876]);
  (705880409739138900, [0x6cc990a6]);
  (706646697013695800, [0x7530]);
  (707807251625726600, [0x6ce2]);
  (708588505599405900, [0x53516e059e7f]);
  (708981433413394950, [0x76d876e4]);
  (709771951364106300, [0x7d047ea6]);
  (710169566202070200, [0x4e506a02]);
  (710969570468777800, [0x51b07d22]);
  (712181706522012300, [0x58ee58ef]);
  (712998037585928400, [0x8afe8bfa]);
  (713408715781193700, [0x9f4a9f50]);
  (713821087499579900, [0x6492]);
  (714650967781049400, [0x673a6a5f96c5]);
  (715068504922097500, [0x543e658774597da07eff]);
  (715487792748101100, [0x6ca76ec4]);
  (715908846001735450, [0x6625]);
  (716331679612687560, [0x6e90]);
  (718041122948617500, [0x5929]);
  (720219858367108300, [0x68ee]);
  (720661360188020000, [0x59377a46]);
  (721997682969236700, [0x6d698fb9908a]);
  (722898589963473300, [0x652f]);
  (723352105480012400, [0x5be8]);
  (724725124761202600, [0x9bae9c9c]);
  (725187019346832100, [0x9999]);
  (727056232648047300, [0x79d1]);
  (727529046767641900, [0x62586749]);
  (728481434918767500, [0x56de]);
  (728961052145116700, [0x51885ca1]);
  (730413862201407800, [0x6717]);
  (732883123460444900, [0x90539686]);
  (733384377642799300, [0x65ad65b7]);
  (734903394192196800, [0x8346834a]);
  (736445841224760040, [0x6cd5]);
  (736965322912470400, [0x5cf0]);
  (737487517310585600, [0x5e7f5ee3]);
  (738012452899200000, [0x5408]);
  (738540158609284350, [0x7281]);
  (741766244831106500, [0x590f68116a39]);
  (743419175026227600, [0x8fea]);
  (745099886857865600, [0x9676]);
  (745666460611433400, [0x592e]);
  (746809330193795700, [0x53cc96d9]);
  (748548504464982600, [0x74dc]);
  (749724988622941200, [0x82d7]);
  (750915478873573100, [0x7709]);
  (751516081279594200, [0x671d8c9d8d1d]);
  (753339840034572400, [0x832884c9]);
  (754574423616802300, [0x516d59c6]);
  (756455356812551900, [0x7248]);
  (758372348423323900, [0x9b5a9c7c]);
  (759019599873885650, [0x4ea575189577957f]);
  (759671067976005000, [0x5bab5bae5eb865b967816975]);
  (760326808030621000, [0x6cb17b54]);
  (760986876433756100, [0x5e9c623f]);
  (762320229520702700, [0x5e95]);
  (765041485873191100, [0x53f25404]);
  (765733530157648500, [0x4f1a67039ea59ea6]);
  (766430397089257800, [0x4e0b51f05f00958b9ed1]);
  (767132154355122500, [0x624e8482]);
  (767838871077431800, [0x98a898ce]);
  (769267466802179400, [0x5cad5dba6469]);
  (769989491599528100, [0x833596f7]);
  (770716767532436100, [0x7434]);
  (771449371541643400, [0x5f7b5fb9]);
  (772187382271405600, [0x4f5b513f51526b478349]);
  (775195127795133400, [0x57c389c089c2]);
  (776733619679081300, [0x77018cb48d35]);
  (777511833723286800, [0x661396349670]);
  (779086669420100800, [0x5f5d]);
  (779883486385018450, [0x4fdd5e84838a]);
  (780686703554744900, [0x68656a4b906e]);
  (781496424578006800, [0x901a]);
  (782312755641922900, [0x76ee]);
  (783135805555574500, [0x5ae99640]);
  (783965685837043900, [0x4e306c9f6e9d7acb8af88bf88c50]);
  (784802510804095600, [0x7d2f97f3]);
  (785646397668682100, [0x56fe57166ee86ff1]);
  (786497466635473000, [0x96c4]);
  (787355841004612100, [0x62dc]);
  (788221647278923600, [0x5587]);
  (789976078244014500, [0x547d9769]);
  (790864972985739100, [0x9ec39ec4]);
  (791761839984015100, [0x5c5e5c6c9806987a]);
  (792666823536006950, [0x96ea]);
  (793580071892334200, [0x4e704f695b595b6b8cb7978d]);
  (794501737402826600, [0x5b98]);
  (795431976669057900, [0x662d8f9b]);
  (797318825099496200, [0x51c953e56dbc]);
  (798275770201111300, [0x4e0379ba975e]);
  (799241961292285000, [0x592b6eaa812b8131]);
  (800217578786821400, [0x70ed71b1]);
  (801202808431122500, [0x51e0540c5e7e5eb768f590ed]);
  (802197841516439400, [0x9662]);
  (803202875101789500, [0x4e185bc65e976f6d]);
  (804218112248191400, [0x6708]);
  (805243762264910300, [0x5cea6606661f73e0]);
  (806280040968465000, [0x5954679c679d]);
  (807327170955194400, [0x4e4c5b9c6ee16eff70cf932b9521]);
  (808385381888248100, [0x666f6d4e6fdf8fdc9060]);
  (809454910799923000, [0x611b6c607231]);
  (810536002410344600, [0x53d15b5c5bdf63d06881725f7406767c7f8c]);
  (811628909463563600, [0x560974647476]);
  (812733893082222100, [0x636e64da]);
  (813851223142034600, [0x90d1912d]);
  (814981178667428000, [0x576173af74b0]);
  (817280130489897900, [0x582a5f5365fa7576783b79318ca28d21]);
  (818449734466217000, [0x4ec1536b5b9d5bf6653f827e885b971e]);
  (819633180230917300, [0x50a3519c65a18fb2]);
  (820830799335588800, [0x4ed98abc8c0a8eca8f66]);
  (822042935388823200, [0x56db969096b1]);
  (824512196647860500, [0x529b6c81814a81d8]);
  (825770074868546400, [0x63076761689d70759748]);
  (828334317929880200, [0x51756c83]);
  (829641526086615500, [0x7d667ed9]);
  (830966048761617600, [0x4ee34eec501151435ce15cfd6b216c76]);
  (832308350794831700, [0x5fd7]);
  (833668916000409500, [0x6c0f6c42]);
  (835048248213643000, [0x57a36fb37532]);
  (836446872411117000, [0x55846210]);
  (837865335910312600, [0x4e9459155965596759cb5c6f6e24943594c1]);
  (839304209655522500, [0x5ca95ff56c827d007eaa]);
  (840764089597637800, [0x51cc6208]);
  (842245598176152000, [0x52b352de6545820c]);
  (843749385912606000, [0x4e0a541b]);
  (845276133125684800, [0x540d677e767b]);
  (846826551779281400, [0x6c146c23968d96cd]);
  (848401387476095300, [0x4ed6536253ef6d856e2176e77d937ecf]);
  (850001421610739300, [0x714c756580428076]);
  (851627473697917400, [0x4e005cb35fc3748396c0]);
  (853280403893038500, [0x4f9d82f18cfd8d5b]);
  (854961115724676500, [0x52dd6691684380dc8d6b]);
  (856670559060606600, [0x532f54c75bbe615566f26c47706b70e771d276f48cd39752]);
  (858409733331793500, [0x4f5c629a64ab7af99813987f]);
  (860179691041733600, [0x55467f8a8a2d8bbe914b9645969b]);
  (861981541592001400, [0x5f655f668521]);
  (863816455458821200, [0x5267528758217167]);
  (865685668760036400, [0x4e3d76ea80a5836198ef996d9e97]);
  (867590488257105900, [0x6234]);
  (869532296842816000, [0x656684e593a3]);
  (871512559572434000, [0x5f626e38904a]);
  (873532830304186000, [0x67516d2a6dd6839e]);
  (875594759024459500, [0x574a5c945de65e085e2b751f7d397ecd82ac984f989c]);
  (877700099944242700, [0x4e07624d626c63da672f67b680af842c88538c37]);
  (879850720466339100, [0x4e8c519b6cad864e8ecd90ce]);
  (882048611138216600, [0x4e1a51ef51f15742576a57f958c15e15696d726282a68606865e9756]);
  (884295896723422500, [0x524d563458f072c4740380728cc88d3e96fe97279d289e2d]);
  (886594848545892400, [0x4f5452aa536059d1653e65d766649f13]);
  (888947898286911800, [0x516b51c0560e676867f3694a6de8817e9a30]);
  (891357653444817700, [0x5830695e713676d080e188578df39e7d]);
  (893826914703854800, [0x594869886ada99969ed8]);
  (898956244142610000, [0x56e05ebe654f8036]);
  (901623068850826000, [0x578b7bc08001828292ae947e96de9e21]);
  (904362966269637500, [0x4f1753bf5510559c5d035d0d65e6773e7e2383778fdb9032]);
  (907180053966307100, [0x53f35c975d175ead6280695a76f8]);
  (910078807653632400, [0x4ead4f535149529f537f575d57e058e95fc56dc09ad4]);
  (913064103968600600, [0x4ea452195247575a580562366237629565bd6cbd6d1e8003928094f6]);
  (916141269835275900, [0x4e95535555ae572d5c4f5cd2756a7ff0932695269685]);
  (919316139666733900, [0x58a85de56d6a76df83059091995299769b039d5d9e45]);
  (922595121949033000, [0x4ec34ee467e56bcd6f7c71df826f84259808987b]);
  (925985277116601100, [0x57235a255e746e296eab795e8056868c]);
  (929494409097728200, [0x521a525b539853c253c3676d6dde78978102829d]);
  (933131173514815700, [0x4f46573a58345b8f624869d07e697ef390f89132959395f4961c9621]);
  (936905206313100400, [0x68856a0a6c7e6e1a80b28db38fbd907c97cb97e6]);
  (940827277628428500, [0x52a852d5635e637764886ce5820d83ab83b283f284ee]);
  (944909477080454000, [0x4f975239524e6d6e79c07a917aaf979898179887]);
  (949165438522333600, [0x4f554f59535353ec5c7f5dbc65c16cb96e2075387a3d7ffc8fe696c697629918]);
  (953610614779417000, [0x4ed350095180533954c15a045a415ba15be95d0e68f19057907a907f]);
  (958262616342906300, [0x5974611f67f46c5777f678ef7d057ea293ae9418949f9547]);
  (963141632759849400, [0x4ed44f644faf58fd5bff5c4b6d31754c7d207f5588d58cbf8d388fc89081]);
  (968270962198604600, [0x588559da6559677f7011901f]);
  (973677684325632000, [0x4e5d4ea84fbf60f9698469866b1672ec73688206827a85dd867987768f3f8fed96499658]);
  (979393525709626900, [0x51b653cb54b85b575c455deb5e905ea75eec5ef762a46df56e0a795c7d8f7ee58b008b778c0b8d85]);
  (985455987891270400, [0x508850f353f859735a185bb95c555f926f4179658b708bae8fc1907791ce988d9cf49e23]);
  (991909840005027600, [0x529d52f8576458025b665b785c1a5d5b606968176d3b6ed3738976ae798579aa878d89bd89c895ad95fe965f96c19732; 0x9aa8]);
  (998809127153722700, [0x4f50535c53825ee05f526012603b6649664b6b276b506b787433771f793e7e3d81e38cea8d2890ca970d]);
  (1006219924369095000, [0x517852c3540e575b585758c75c3e5e9e5f8c675c67f16d826e146f016f3370c8743679567d507ed37f587fc1829c82d1; 0x856a89818d709ebb9f90]);
  (1014224195136448600, [0x4fee56fa5bbf5e2d65e766a8674367ef69ae6b0a6b4c7076719f74f6767e76d677e57cae7ce7820a8363845b84cb8c61; 0x8ce28d2491cf928594dc]);
  (1022925332835411500, [0x4e8b4f115207523853665377577b5bb05cb85f1762db69ad6c6a6c746df3780178bc7aa67ac77ae58b498bc18c6b8cf4; 0x8d569a4a9a85]);
  (1032456350815844000, [0x4e434f19514551e4547c59255c115cd9601d616767f568056c407237723a752c757f8f1d8f898fc5932294b196469678; 0x9cf3]);
  (1042992402381626600, [0x52fb5300534153f65b5f5ef6600061f762186230639667146a356bdb6c4a6c556c646d946e6f6ee9705872b97336743c; 0x74ca769676ca77ff79267a7a7ae0809681f384498b288c1f8ca88d278f158f7b900a9059905c906590ae90f591529759; 0x975c]);
  (1054770705947265000, [0x4e254eae51ac56b45b645b875d6c5ec9671b67d4684268c96cfe6d2e6d8770fd7531753a7559781a786f7891838e8446; 0x8f458f9592ea94fa964497d397e99e9f9f3b]);
  (1068123845209717300, [0x4e344eeb4f0d4f6c539d541e573b57f75c0f5f205f355f715f815fb55fe0624062676602680f68a76b046b656dcc756c; 0x7572771979e67a747e547ec7800681e8822a846c865a865b87ba8854929c93e1955c962a99ed9a87]);
  (1083538913192443000, [0x4e3a4f36505552a954105415544254685792580658d858e458f658fa5b8b5de25e995edf5f375f3a5f696252659766a2; 0x66d9674e67d868506f5870ba70e47535754577fd7845795d7fd4805a810a83028336836b852d90319642964796b496fb; 0x98db98de9b25]);
  (1101771068871838500, [0x4f0f4fd151b752e45740582f59475b975c275e2e5e6b60706279631d64be6551664f6710690d6da76dc46e586f9772ee; 0x734573b073fe773c78147e617ee38150835484ec8d8a90b192d2950b95a39601]);
  (1124085424003259500, [0x4e164e1d4e984e995200537153a256f4570d575c58e25b545b635b885c605cfb5db75e385ec25f0b5f255f4c5ffb6089; 0x6101616e624b656c65cb65f66642672b6740697c6a136bba6caa6e0e6eec6f2b700670ad7317745f768b79ef7a4d7d72; 0x7d737edb805e80de82e582e686518cc08cda8d3a8d498e4490479075913195fb96be96e3970499d29a799afb9db49e64; 0x9ed49f619f84]);
  (1152853631248437500, [0x4e2b4e544e664ec650d5516851b252bf52e25305547355ac592259e55b9b5ba25bfa5f795faa5fae659c66f8681668a6; 0x68a868f26b3d6c886cd76d8c6da66e676ee66f647064724c76fe78c178e879687a577fe0829283dc8463857485fb860a; 0x868187fb885d894489ba89c98a008a318bb88c6a8cfc8d2d8d64910292fc947c94a294a6952397389a5b9a7f9bc99ca4; 0x9f9c9f9f]);
  (1193400142059254000, [0x4e4b4e894efd4fa850d1517751a053d9566857c258355a1c5c165c405cb15ce85e4c5f04609f60e06253629762ab6392; 0x65586756677768e368f06b636bd76c7d6d3c6de16e2d6ed56f157070722d73c073c874ef750c7802789a7a9d7aa97aaa; 0x7b527bee7c437dda7ebf8005821f8339836f83aa8497851785e5871c87d28a258bb78dd190b390e891cd91e394939818; 0x988698df9d099d6c9d729e269e4a9e4f9f0e]);
  (1262714860115248600, [0x4e454e584ea74eea4fe1510052185289534353675374537b53d653ea53fb545854e1561b56ca5751575e57a6586258be; 0x59515b5a5b5d5c065c075c155c245c3a5d165df75e3d5e945ed35ed65f90614861c9632f634965996731689368af6bbf; 0x6c386ca56cf36cfc6d536d546df16e5b6ecb6ed16f516f6f6fc3701d70ae70e671697199722a72fc73ca74a77522753b; 0x756b76d176e3785578a378a978fa793a79cb79cd7a057a0e7a2e7ad97bad7bc47bd97d0b7df47eb97ec381e581fc8231; 0x825983038352843d84ff853a85fa86c788638868899689c68a138b198b1d8b598b938ba98bad8c228c268c2f8c788ef8; 0x8f7490a190b5914d932f9472951995769655965d977c9df99e70])
].
(** prob_emit.go:75057-76337 probEmit, state 331 *)
Definition emit_331 : list (Z * list Z) := [
  (239769882943009500, [0x56fd570b]);
  (309551061196191530, [0x928094f6]);
  (316834348306870200, [0x653f]);
  (320641543101811000, [0x5927]);
  (382782062023042100, [0x6c11]);
  (392322341835471540, [0x592e]);
  (406854075319832550, [0x5171]);
  (410483203526004200, [0x5b665b78]);
  (414375957209009700, [0x4e1a696d]);
  (415205043590804300, [0x4e2d]);
  (418459479841166400, [0x52a152d9]);
  (424633648453407600, [0x516c]);
  (436381168580292700, [0x4eba]);
  (441871467812059900, [0x6d77]);
  (447503732091315200, [0x59d4]);
  (448794646968992100, [0x8b498bc1]);
  (450102444638877850, [0x5bb6]);
  (453519212829764200, [0x5408]);
  (455751554401620800, [0x4eac]);
  (456184768075534200, [0x4ea4]);
  (457251703511874100, [0x5de5]);
  (459719745860738900, [0x5546]);
  (465162567567459550, [0x79d1]);
  (466170266362495200, [0x534e83ef]);
  (467403856690576200, [0x96c6]);
  (474041363585063500, [0x545854e1]);
  (475904048405780240, [0x8054806f]);
  (476139342631982900, [0x4ea77522]);
  (476198252795689600, [0x519b8ecd]);
  (483026010687974150, [0x5e02]);
  (489072701242741600, [0x6613]);
  (494089211603108000, [0x751f]);
  (494867425647313500, [0x4fe1]);
  (495723350986880450, [0x753596fb]);
  (510519516732235600, [0x7d447ec4]);
  (511857329326853200, [0x5357]);
  (514847727292206300, [0x53d1767c]);
  (516951222904146000, [0x5238]);
  (522880912328953200, [0x901a]);
  (525547737037169300, [0x91d1]);
  (525934584714961400, [0x4f1a6703]);
  (526031530917416200, [0x534f5354]);
  (526420258326256400, [0x7701]);
  (529084451420898500, [0x7406]);
  (529988525886113400, [0x8a2d8bbe]);
  (530089485006248700, [0x9645969b]);
  (552025767853679000, [0x672c]);
  (555091141962779200, [0x76d176e3]);
  (559736967446224600, [0x6cbb]);
  (561657465429829550, [0x6cd5793e]);
  (563474426665899500, [0x6d32]);
  (567210493362033200, [0x653e]);
  (567503748704160900, [0x5733]);
  (567797866563242600, [0x4e1c6771]);
  (568983065621944000, [0x5dde]);
  (570484595333943600, [0x7ba1]);
  (571243900424703300, [0x65af]);
  (571549244173392350, [0x519c8fb2]);
  (572009015098255300, [0x51fa]);
  (573713161683740400, [0x5b89]);
  (576405327440366900, [0x89e3]);
  (578842491122495500, [0x5efa]);
  (580835912612577200, [0x603b7e3d]);
  (583902592451874500, [0x4e9a4e9e]);
  (584249213249523100, [0x5e38]);
  (585121058353511200, [0x4e3b]);
  (587963167944468800, [0x7248]);
  (591074123302933800, [0x7814]);
  (592007836902527700, [0x7a76]);
  (593139924464976000, [0x5916]);
  (596223020298741800, [0x4e8b]);
  (597999967349939250, [0x53e3]);
  (598799971616646900, [0x7d057ea2]);
  (600012107669881400, [0x533b6218623091ab]);
  (601239116929062900, [0x6c7d]);
  (602065567914052200, [0x754c7a7a8a088ba1]);
  (602273252308536100, [0x6587]);
  (603108330230278100, [0x4e6666f8]);
  (605013149727347500, [0x5229]);
  (607391640229691700, [0x6e2f]);
  (609828084117105800, [0x943594c1]);
  (611866659809553150, [0x5316]);
  (612095754984208800, [0x8ca88d27]);
  (612555525909071700, [0x4e506a02]);
  (613017420494701200, [0x57fa]);
  (613249170308737400, [0x7d937ecf]);
  (614181577996249750, [0x515a9ee8]);
  (615122761414484400, [0x92fc94a2]);
  (616551357139232100, [0x5317]);
  (617757644384159600, [0x9769]);
  (618244263349276850, [0x7d717edf9ad8]);
  (618488463714832000, [0x7d047ea6]);
  (620214770457210100, [0x547d]);
  (621214778790668500, [0x532f6c47]);
  (621718558193664200, [0x5170862d]);
  (623502044957267550, [0x6cb996469678]);
  (627167376722071200, [0x9662]);
  (633496861759302500, [0x672f8853]);
  (634066663870766250, [0x8eca8f66]);
  (634352787098869500, [0x65b9]);
  (635795813581772300, [0x52a0]);
  (636086934602518200, [0x5e015e63]);
  (636965417558091500, [0x6d0b]);
  (638148863322791800, [0x5f00958b]);
  (639045730321067800, [0x6797]);
  (639648141781405900, [0x540c54c1]);
  (639950713873059600, [0x6d25]);
  (640254204242575000, [0x822a]);
  (643027879739734900, [0x8b708bae]);
  (643654841041094500, [0x4f5b]);
  (646202749571193000, [0x6d4e6fdf]);
  (646525851629337640, [0x8cbf8d38]);
  (646850001021754700, [0x8ca18d229752]);
  (648486698768175300, [0x8cc78d44]);
  (648817277581625300, [0x5c145ddd723e]);
  (649815621980043550, [0x5e74]);
  (651162443685130200, [0x51745c718208]);
  (656381019002187200, [0x897f]);
  (657097867950048500, [0x54e5]);
  (659279772689512460, [0x798f]);
  (659648097231142100, [0x9632]);
  (663407938586842900, [0x7763]);
  (663791816217559500, [0x683c]);
  (664177173149158400, [0x536b548c885b]);
  (664952370829590200, [0x6559899689c6]);
  (665342234871156000, [0x9577957f]);
  (665733624803269600, [0x51685c55]);
  (666917070567969900, [0x738b]);
  (668517104702614000, [0x5c3c]);
  (669326825725875900, [0x6c5f]);
  (670143156789792000, [0x7687]);
  (670553834985057300, [0x5e085e2b]);
  (672213624125961100, [0x6c34]);
  (672632911951964700, [0x82308266]);
  (673053965205599100, [0x68656a4b884c]);
  (673476798816551200, [0x4f26502b6709]);
  (674756133962542100, [0x65d7]);
  (675186242152481200, [0x90e8]);
  (675618208266932800, [0x90a6]);
  (676925416423668100, [0x5c9b5cf6]);
  (677806479391883600, [0x56e25718]);
  (679142802173100350, [0x4f5c]);
  (680043709167336900, [0x9650]);
  (680497224683876000, [0x7528]);
  (680952806337462100, [0x5fd76bd476df77f3]);
  (681870243965066300, [0x97f3]);
  (687558981405271400, [0x4ee3]);
  (688047979934690500, [0x5929]);
  (691033276249658700, [0x4e3080a18c50]);
  (692048513396060500, [0x5236]);
  (693074163412779400, [0x7f8e]);
  (695157572103063600, [0x65e6958095e8]);
  (695685277813148000, [0x5e7f5ee3]);
  (697285311947792100, [0x5e8661767279]);
  (699459310611432600, [0x537081ea]);
  (700010276192529600, [0x6e90]);
  (701121398735036700, [0x9b6f9c81]);
  (702245006061729300, [0x5f71]);
  (703954449397659300, [0x5ea67d1a7ea7]);
  (706280135614086000, [0x4fdd]);
  (706870107826804900, [0x514b]);
  (710484959238436000, [0x526752877bc48303]);
  (711100345795873800, [0x5bdf]);
  (711719542820665900, [0x8868]);
  (714874378594158500, [0x592a]);
  (716816187179868600, [0x4e006295]);
  (718131995637619800, [0x656680b2836f85e5]);
  (718796449909486600, [0x4f539813987f9ad4]);
  (721499317148278600, [0x9053]);
  (722186605077054700, [0x6280]);
  (722878649361512200, [0x57d4827a85dd]);
  (723575516293121450, [0x5766]);
  (724277273558986150, [0x50995907]);
  (724983990281295400, [0x54c87269]);
  (726412586006043000, [0x53f2590f]);
  (727134610803391700, [0x62c965b0]);
  (727861886736299700, [0x571f5b815be7]);
  (728594490745507000, [0x767d]);
  (730825066496936900, [0x5df4671f]);
  (735441270673253100, [0x52b352de6c496f22]);
  (736231788623964400, [0x6c146c23]);
  (737831822758608500, [0x4e497fa9]);
  (738641543781870400, [0x4e8c533a5340]);
  (739457874845786600, [0x53e48a188bb0]);
  (740280924759438100, [0x64ad7cd6]);
  (741947630007959300, [0x878d]);
  (742791516872545700, [0x7dad7ef4]);
  (743642585839336600, [0x58eb8fdb903290fd]);
  (744500960208475700, [0x673a6a5f7b2c82cf8607]);
  (745366766482787200, [0x4f6952a852d5]);
  (746240134479662700, [0x6253]);
  (747121197447878150, [0x59655967]);
  (748010092189602700, [0x606f72479bae9c9c]);
  (748906959187878800, [0x575b58c7]);
  (750725191096197800, [0x529b7f577f85]);
  (751646856606690200, [0x65f66642]);
  (752577095872921600, [0x610f613f9858]);
  (754463944303359800, [0x56fe571668c06aa2]);
  (755420889404975000, [0x4e09]);
  (757362697990685100, [0x6838]);
  (758347927634986300, [0x50a85132]);
  (759342960720303050, [0x8db3]);
  (760347994305653250, [0x529e6e7e7063805e8fa695fb]);
  (761363231452055000, [0x5e9c7a0b]);
  (762388881468773950, [0x65e59633967d]);
  (763425160172328600, [0x4efd]);
  (764472290159058150, [0x76db]);
  (767681121614208200, [0x661f]);
  (768774028667427200, [0x8def]);
  (769879012286085700, [0x80fd]);
  (772126297871291540, [0x4e34520681e8]);
  (773269167453653900, [0x7531]);
  (774425249693761400, [0x9762]);
  (775594853670080600, [0x583162a5]);
  (776778299434780800, [0x65cf660e]);
  (779188054592686900, [0x58216cb3]);
  (782915194072410100, [0x57ce]);
  (784189096650153100, [0x5149539f57c365c591ce]);
  (785479437133743800, [0x5564]);
  (786786645290479100, [0x4e164f1751785ce15cfd773e]);
  (788111167965481100, [0x620f6232666e]);
  (789453469998695200, [0x5212528359488b66975e]);
  (790814035204273100, [0x4f2050b3518075869ece]);
  (792193367417506700, [0x590d6e387e547ec7904a]);
  (795010455114176300, [0x67008fde9023]);
  (796449328859386300, [0x5ba37a057a0e]);
  (797909208801501500, [0x52d2]);
  (799390717380015600, [0x5eb75f8b753088c588dd]);
  (800894505116469600, [0x73af74b0]);
  (802421252329548600, [0x56685fb760f3]);
  (803971670983145000, [0x5341684868636a946b666d66]);
  (805546506679959000, [0x4f2f53c253c356db5e737d007eaa]);
  (807146540814603000, [0x5730]);
  (808772592901781100, [0x4fc35b50]);
  (810425523096902200, [0x5386554f6b7795ee9867987e]);
  (812106234928540300, [0x7259]);
  (813815678264470300, [0x68396cf0]);
  (815554852535657200, [0x5c407403]);
  (817324810245597400, [0x588382b1]);
  (819126660795865100, [0x5251528d821e]);
  (822830787963900000, [0x73bb8000]);
  (826677416046679700, [0x4f0a5a016b276b50716485cf88e191cc]);
  (828657678776297700, [0x67e59152]);
  (830677949508049500, [0x5175725b7c4d91cd99ac9a6c]);
  (832739878228323000, [0x67436b0a6e05753b756b8036]);
  (834845219148106400, [0x7b978239829d83b1840a]);
  (836995839670202600, [0x62588fdc9060]);
  (839193730342080200, [0x4e0e5761713673e07cae7ce782078afe8bfa8c61]);
  (841441015927286200, [0x4e037ae582728f2a8f6e]);
  (843739967749756000, [0x5e1d8cea8d28]);
  (846093017490775300, [0x60697b56]);
  (848502772648681400, [0x516b67496b4c8f388f93]);
  (850972033907718600, [0x4efb7cbe7db27f518a0a8baf]);
  (853503814706147600, [0x547359735b5770b9814a81d88fbe905498db98de9ede]);
  (856101363346473600, [0x516751855c465c4a8fd0904b]);
  (858768188054689800, [0x4e015173593473ed8c9d8d1d95dc982d]);
  (861508085473501200, [0x4f4d57235b9e5be662ff680768b06a19805688c2966996aa]);
  (864325173170170800, [0x4f7f53cb732e737b7bad80058b588bc6]);
  (867223926857496000, [0x4e0a54335434767b8fea99d09a7b]);
  (870209223172464200, [0x51c659156e9670ae9f8d9f99]);
  (873286389039139600, [0x767e80a58499]);
  (876461258870597600, [0x5217541b77e5]);
  (879740241152896700, [0x53396da66f64]);
  (883130396320464900, [0x5b875b9a611b66256d8872317d617edc8a718bdd8cac8d2390ae90f598df]);
  (886639528301591900, [0x4ec153ca592b59875a6668427a3b]);
  (890276292718679200, [0x4e135c086d6a7acb91cf]);
  (897972396832292200, [0x6ee86ff182ad857e90209a579a8c]);
  (902054596284317600, [0x53ef591a5c115feb8cf48d568f9b96b696b89ea59ea6]);
  (906310557726197200, [0x4fa84fc450d15f7b5fb960c568ee6d1b7d107ebd8edf8f6f]);
  (910755733983280500, [0x53f057f7626767816975706b7cfb7f8a8349]);
  (915407735546769900, [0x513f51525225522b5bbe5fbd66fc8cd39ebb]);
  (920286751963713100, [0x4e0b5ef7675c7d0d7eb38fd1]);
  (925416081402468100, [0x54f25c045e2d657065786728714c75387b497ff080339e93]);
  (930822803529495800, [0x4e5f516d518a518c53566c996ce26ce86e5675377b517bc98ce39686]);
  (936538644913490600, [0x4e944f015bc65be8688579fb96359663]);
  (942601107095134200, [0x4e3a4e5d4e924ef750f952e4540e5b5a5f845f8c5f91655667cf6d4b6e2c70ba74e68a9e8abf8bed8c0392b79500969c]);
  (949054959208891300, [0x56095854597d5ae95ba25bf95c0d6664679c67f46ce077f678ef898f89c4]);
  (955954246357586300, [0x521b52756e146e5b6f01724c745e7dda7ebf7fbd823684049999]);
  (963365043572958500, [0x503a50b5573a58345c5e5c6c65996bdb6ee6706470f97d507ed38b008c0b8cbb8d398df3967598ea996a99b39a70]);
  (971369314340312200, [0x4e524f5951765e935eab63076b8b6b986ee9705877ff792681f48abc8c0a9918]);
  (980070452039275000, [0x503c514853f8575d585e58e958f05c0f6276646966f26d4180728a558ad68bba8bc48ca78d2b8e488fc590a3928592d2; 0x94dc950b96449ec39ec49f4a9f50]);
  (989601470019707600, [0x632563ee70ad8679]);
  (1000137521585490300, [0x4e395ba15be95cb85e035fc3660c6b47842885a99996]);
  (1011915825151128700, [0x4e184e244e534f9d4ff15169517954095bfc5c0e67176851739b73b073fe746a83328d7796f79806987a9ed19f619f84]);
  (1025268964413580800, [0x4eea510051b65211543e54a8580259375b985e84609f6155620d6297629a64ab670d671d6b636c0f6cc96e236e296eab; 0x6f6d74dc7d20821c838a838e83f18a138a628aee8bad8be2963f97d397e998a898ce]);
  (1040684032396306700, [0x4e95524d57a658be5c015de26392654c657565e9674268cb6c426cca6d3e70bc71497b797c4c7c738a008a2a8aa08bbf; 0x8bda914b92c194dd96dc9707]);
  (1058916188075702200, [0x4e704ed74ee451fb529d52f855315b9d5bf65f5263d064ca65396821690d6b786e5875be79d87e317eb5800180038083; 0x808580de8cb78d648f9e8fad959395f497cb97e698fe992899709986]);
  (1081230543207123000, [0x4e91501950655144529f572d585158fd5a925bab5bae5bff5f1f62a462bd62cd631d63a7644464be651d67506c766f14; 0x751878b17d227d2b7d9c7efc83f284c48aaa8b778bf48c9e8d1e8f158f7b923494c396be96e396f2978d981098189884; 0x98869aa89e7c]);
  (1109998750452301200, [0x4e3e535a53f6541056f4570d579258d859c65bcc5f0f5f815fb55ff5623f64cd65e066066708671b6751677e682a6b8a; 0x6ce56cf36d596dc06eaa6fb3712172ec7368756a7d217e967ea47eba8209829c8336839e8449856a866b87f28b6f8bd1; 0x8cb48d359057907a96c59a0e9a91]);
  (1150545261263117600, [0x4ef24f865047516551b053495411575a578b580558f359225a035b5f5c455c4b5c975cad5d175dba5e0c5e9e5f555f97; 0x6649664b6668676568a66bbc6c836cfe6d016d2a6d696d876ee16eff6f546f6e70df71597267732b73897532755975c5; 0x762476f4771f795e79687a467bee7c437d667de87ed97f1680bf810f81118166816b81df8247826f82f983ab860b864e; 0x88c189d28a8d8ba48c468c938d6b8f1b8f868fb08fb9908a92149274930493e19451949e955c9655965d96de9e219f90]);
  (1219859979319112100, [0x4e614ed64f4f4f734f9b5143517b518851b551fd536153bf53d65510558456de572859045b8f5b975ba45bbd5bec5ca1; 0x5ca95de65e265e365ec9602561486210638865746761679d67d4689d68c969ae6c646cc16e256e6f6f5b6f5c718a7199; 0x71df72d075ab764c769676f2773c78347840786c790e79e67c7b7d277d2f7dca7e237e6a7e9c7ed87f0680af812b8131; 0x82b382f183288363842584828655884089c089c28a668af88b808bd58bf88bfb8c6b8dd19009900a901f905c907890f8; 0x9102910991329175932b9521961c962a96a79802985e9876990a9d5d9db49e459e64])
].
(** prob_emit.go:76338-78180 probEmit, state 332 *)
Definition emit_332 : list (Z * list Z) := [
  (324635749307720900, [0x5927]);
  (332167871116907550, [0x65af]);
  (337059385190556400, [0x62186230]);
  (371571228325860940, [0x4e16]);
  (379795038149558150, [0x6b21]);
  (385551129081288970, [0x754c]);
  (407482586489000200, [0x65e5]);
  (413273390395246000, [0x56fd570b]);
  (414518454583124800, [0x4e8c]);
  (420321430259974800, [0x5c14723e]);
  (423074739695973700, [0x9769]);
  (427709018618743100, [0x5170862d]);
  (431011828734230100, [0x80a1]);
  (431348189629898500, [0x8fd0904b]);
  (432432211085185000, [0x7763]);
  (448029097299816700, [0x5316]);
  (451347896425166200, [0x4e00]);
  (458689075587664900, [0x6c11]);
  (462388189261042300, [0x943594c1]);
  (469530681577762700, [0x4e3b]);
  (484175443366869600, [0x753596fb]);
  (486137422053834800, [0x4ee3]);
  (488257642818895100, [0x8868]);
  (494902152759710400, [0x514b]);
  (497349151865905450, [0x5c71]);
  (498134496216462400, [0x8c9d8d1d]);
  (504090247942669000, [0x6797]);
  (504229815306566500, [0x8fbe9054]);
  (517503177939338950, [0x62c9]);
  (520744952896681200, [0x6210]);
  (522573765296096050, [0x58eb]);
  (523925137212768400, [0x79d1]);
  (525467584245331500, [0x53e45b665b78]);
  (526683932864651300, [0x624b]);
  (527034195919771400, [0x4e09]);
  (528269869188662000, [0x743c74ca]);
  (528625741450361450, [0x592b]);
  (529881363327902650, [0x91d1]);
  (538353030347578800, [0x5229]);
  (539937221894144600, [0x65b0]);
  (544011104992054900, [0x4e8b]);
  (544219221612437400, [0x57fa]);
  (548258027702966200, [0x4ea5]);
  (548910913591212500, [0x4eba]);
  (550895543228405600, [0x653e]);
  (551565936800624600, [0x6d77]);
  (551790403786007000, [0x9178]);
  (552693344457946440, [0x5c3c]);
  (554755273178220000, [0x7279]);
  (556153897375694000, [0x9ad8]);
  (556860614098003200, [0x5357]);
  (560226316398350800, [0x53d1767c]);
  (562201689271974100, [0x543e]);
  (563456410877183000, [0x5ea6]);
  (565755362699652850, [0x4f2f]);
  (568108412440672250, [0x7247]);
  (570247531438804100, [0x52a852d5]);
  (571061647197174000, [0x7d937ecf]);
  (572710036169342900, [0x6c5f]);
  (573265593153803200, [0x547d]);
  (575519209656044500, [0x5bb6]);
  (576377584025183600, [0x4f1a59296703]);
  (576953954496858600, [0x92fc94a2]);
  (578409584274279350, [0x5730]);
  (579293242454329200, [0x5b89]);
  (580483732704961000, [0x9633967d]);
  (581992056926093900, [0x6839]);
  (583523480423398100, [0x592a]);
  (583832599680365400, [0x4e39548c]);
  (585078721724146600, [0x6587]);
  (586658533411805700, [0x897f]);
  (588913057243911400, [0x56db]);
  (589895061862008900, [0x5546]);
  (591219584537011000, [0x5339]);
  (591553474663562400, [0x4e9a4e9e]);
  (593580571100924300, [0x4e506a02]);
  (595301783989036400, [0x676d]);
  (596348913975766000, [0x751f99ac9a6c]);
  (597053142238307300, [0x6d4e6fdf]);
  (597407124908819700, [0x5e736708]);
  (598118871685706000, [0x683c7406]);
  (598476653820494500, [0x6c34]);
  (598835720633567400, [0x4e01]);
  (600650652484135100, [0x4ea4]);
  (602872966162606100, [0x4e59]);
  (606301873510469300, [0x65b9]);
  (608654923251488700, [0x6cbb]);
  (609451740216406400, [0x8a188bb0]);
  (610658998339833300, [0x534e83ef]);
  (611472010948158300, [0x9bae9c9c]);
  (612291687668576200, [0x81ea]);
  (612704059386962400, [0x6307]);
  (613118138653565600, [0x673a6a5f]);
  (613951476809479950, [0x53487c73]);
  (617356060950451700, [0x8d77]);
  (617789901110311500, [0x534f5354]);
  (618225631647207050, [0x6b63]);
  (620880654856619200, [0x55105dde5e0c7f577f85]);
  (622235077367394850, [0x5408]);
  (623148325723722200, [0x8fea]);
  (625000230500445900, [0x4e1a696d]);
  (626412018655024400, [0x5e7f5ee3]);
  (626887078930884200, [0x666e]);
  (627364406806149950, [0x6c27]);
  (628810215123672900, [0x83f1]);
  (629296834088790200, [0x814a81d8]);
  (630771062262510500, [0x65f66642]);
  (631267341196723500, [0x516751857259]);
  (631766095347827300, [0x4f17773e]);
  (632267349530181800, [0x7532]);
  (633277459128832200, [0x842885a9]);
  (634297876146256400, [0x4e2d]);
  (635848294799852900, [0x5df4878d]);
  (636895424786582400, [0x5171]);
  (637423130496666800, [0x697c6a137dad7ef4]);
  (639562249494798500, [0x4eac5149]);
  (641197163294951500, [0x4e1c6771]);
  (642302146913610000, [0x51c66e96836f85e5]);
  (646848384321285800, [0x9645969b]);
  (647431476352365000, [0x5168]);
  (648017988297604800, [0x536b5efa885b]);
  (649798450760955500, [0x9f8d9f99]);
  (654707411780607900, [0x5b50]);
  (655338328699934400, [0x80fd]);
  (656612231277677300, [0x85cf8b498bc1]);
  (657255320310706400, [0x516c7269]);
  (657902571761268100, [0x5c5e5c6c5e866176]);
  (659209779918003400, [0x6e90]);
  (659869848321138600, [0x9762]);
  (661203201408085100, [0x5de5]);
  (661876604626219500, [0x73ed]);
  (663237169831797400, [0x5b9e5be6]);
  (666015126242505000, [0x4f106cd5]);
  (668872463486910500, [0x6d0b91cd958095e8]);
  (669599739419818500, [0x6e7e7063]);
  (670332343429025800, [0x529b532f6c47]);
  (671070354158788100, [0x6c496f2283b1840a]);
  (671813852007539900, [0x4e4956e257186f147fa9]);
  (672562919180455700, [0x54097d217eba98fd9971]);
  (673317639743994000, [0x533b606f91ab]);
  (674078099682515800, [0x884c]);
  (674844386957072800, [0x4e036d1b]);
  (675616591566463850, [0x79e6]);
  (676394805610669400, [0x516b]);
  (677969641307483250, [0x4e6666f8]);
  (678766458272400900, [0x8054806f]);
  (679569675442127300, [0x5361]);
  (680379396465389250, [0x54c85fb7]);
  (681195727529305400, [0x60466052]);
  (682848657724426500, [0x4f0a]);
  (684529369556064500, [0x98a898ce]);
  (686238812891994600, [0x660c7ff0]);
  (687104619166306000, [0x65cf]);
  (687977987163181500, [0x6258]);
  (689747944873121600, [0x805a]);
  (690644811871397700, [0x4ea75c465c4a6e2f75227f8e]);
  (691549795423389400, [0x585175307d717edf8857]);
  (694314948556440500, [0x6c2f8cfc8d2d]);
  (695253922591424400, [0x519c8fb2]);
  (696201796986878700, [0x5ce15cfd99db9a76]);
  (697158742088493800, [0x5b5c]);
  (698124933179667500, [0x6597767e9b25]);
  (699100550674204000, [0x661370ef]);
  (701080813403821900, [0x58546668]);
  (702085846989172100, [0x653f7d007eaa]);
  (703101084135573800, [0x8ddd9577957f]);
  (704126734152292800, [0x590f]);
  (705163012855847400, [0x6c3096c6]);
  (707268353775630700, [0x6cf088e18c4691cc]);
  (709418974297727000, [0x59c68cfd8d5b]);
  (710511881350946100, [0x6d526ef8]);
  (711616864969604550, [0x5175864f865c]);
  (712734195029417100, [0x90fd9170]);
  (713864150554810400, [0x4e5d591a5b697d057ea282ef8d1b8d63]);
  (715007020137172700, [0x6caa6eec]);
  (716163102377280300, [0x4fe16d66959395f4]);
  (717332706353599400, [0x534167178a088ba18f3b8f90]);
  (718516152118299700, [0x73e08328]);
  (719713771222971200, [0x4f5b6e56826e]);
  (720925907276205700, [0x5baa61b2]);
  (723395168535242800, [0x6ce8]);
  (724653046755928900, [0x53a25ec27d197eb8928594dc]);
  (725926949333671900, [0x4f865f156765]);
  (727217289817262600, [0x660e]);
  (728524497973997900, [0x9999]);
  (729849020649000000, [0x67436b0a81508cbf8d38]);
  (731191322682214000, [0x52a073af74b0771f7b2c8033901f]);
  (732551887887791950, [0x51f062ff]);
  (733931220101025500, [0x513f5152]);
  (738187181542905100, [0x7164]);
  (739647061485020350, [0x4e4b5f006ce2706b70ac71368afe8bfa958b]);
  (741128570063534500, [0x4e075c04786b842c]);
  (742632357799988400, [0x4f0168af8def]);
  (744159105013067400, [0x5225522b52365e026d32]);
  (745709523666663900, [0x6b6579bb96e2]);
  (747284359363477800, [0x63a76d257e547ec780a4819a]);
  (748884393498121900, [0x672c6df18404903b908f]);
  (752163375780421000, [0x5ddd6208655165e07121745e]);
  (753844087612059100, [0x8840]);
  (755553530947989100, [0x53d87d507ed38b8a96c5]);
  (757292705219176000, [0x6c226c2b74e682b18dc38e8d]);
  (759062662929116100, [0x53e054736696758a]);
  (760864513479383900, [0x4e3453a55f53610f70ed71b1757681e88cc78d449b6f9c81]);
  (762699427346203600, [0x4e194ed4521b5275]);
  (764568640647418900, [0x5b815be75eb79e7f]);
  (766473460144488300, [0x53e3720688d5]);
  (768415268730198400, [0x4f9d517857ce76fe8fde9023]);
  (770395531459816400, [0x4e0d51c06c1f6de8725b7b147b46822a8272]);
  (772415802191568400, [0x515a5c3f629574837c929ee8]);
  (774477730911842000, [0x4fee517b53f056fe57168ef88f74990a]);
  (776583071831625200, [0x4ea153455cad5dba5e1d6c28]);
  (778733692353721500, [0x57665e085e2b646967506c8874037528795c]);
  (780931583025599100, [0x50655df1675c77f3]);
  (783178868610804900, [0x660668656a4b8ad68bba]);
  (785477820433274800, [0x4e944e954f6c596559676625]);
  (787830870174294250, [0x585e6bd4]);
  (790240625332200250, [0x52d253ca5b9d5bf6666f76df89e3]);
  (792709886591237400, [0x59875a666d6a8f148f85]);
  (795241667389666400, [0x5317571f5c455fc55fd766f26eaa7cbe8fdb90329675]);
  (797839216029992500, [0x4e914f26502b53cb59166cb383cc96f2]);
  (800506040738208600, [0x4e254e6156b45b9a6c7e773c9109]);
  (803245938157020000, [0x7cd68f2a8f6e918798179887]);
  (806063025853689700, [0x5143540c65a176db795e]);
  (808961779541014900, [0x4ec153a653ef5e155ec8603b63a57e3d82cf83498607884d9ea59ea6]);
  (811947075855983000, [0x4ec050f3566a65c56d746e1d8c3792c194dd]);
  (815024241722658400, [0x51b75343538b574758d3636263db658b66766b3e6eb696de9d5d9e219e459f4b]);
  (818199111554116400, [0x4ec650d559475b5767287d107ebd808982f18d6b91cf]);
  (821478093836415500, [0x53cd6e296eab7ba198059879]);
  (824868249003983700, [0x5176521d6f6e71e57a057a0e]);
  (828377380985110700, [0x6cca6da66f6477fd784578b17cfb9e7c]);
  (832014145402198000, [0x517356fa5e74620c632f63a863f4671d6df77e8c7eed8003837795dc]);
  (835788178200482800, [0x5934606865366c146c237a0b7f627f7789e689f8966996aa982d9aa8]);
  (839710249515811000, [0x52a152d953f653f86c0f6c9f6cb96e9d7070738b7e7c7ee78230826684499102]);
  (843792448967836400, [0x54f2604b606d620066fc6d416e216ee46ffe7d0d7eb388ad897290ae90f59d099e26]);
  (848048410409716000, [0x4e544f53516551f8544a55ac5bb35de166f46f5b6f5c793a901a946b96649813987f9ad4]);
  (852493586666799500, [0x543354345b625ff5726783ab96c49d3b9e3f]);
  (857145588230288700, [0x4ed95385590d5ef3620a62366237653968d5731c7a9d7aa9827a85dd8a138bad97389a459a71]);
  (862024604647232000, [0x5177535a541b56095c1a627064fe67406bba6bd273ca77e98f1d8f89928094f6963596639732]);
  (867153934085987000, [0x5ba36027660269306d2a78e87d227d277dca88c588dd89d28eca8f66900f9676968699ff9a8f9ec39ec4]);
  (872560656213014600, [0x4e0e520658215bcc6761689d6e05706f716771c873a979657a7a7a917aaf7c897ca47cb58207947d94bb9644]);
  (878276497597009400, [0x524d5370671f6d6e6f6d785d7f6e823984828ce08d5496f7]);
  (884338959778653000, [0x5b875ea75f375f3a5fae62c665d7661f67ef7a20829d8ac78c088f268f8790a3932b9521]);
  (890792811892410000, [0x4f2450b750cf54c15757584a5b5a5b8f5bdf628063a967d368426d016e386ee86f546ff17586826f830586db8a508bc8; 0x8fa3904a]);
  (897692099041105300, [0x4fa6507555d3573a578b58345bbe5c605f395f48640f6bdb6c7d743375187b49810f81df83ca87828a718abc8bdd8c0a; 0x8cd38f498f6c98df]);
  (905102896256477300, [0x4f59514651e451fa536457f95c55601d6478670967a267e568a86a1e6ed573bb767d76d176e3774078147a467ce08457; 0x84b899189cf39e75]);
  (913107167023831000, [0x4f5c516d51b2523853d758585e3862a4677f679c688568b06ce16ed16ee16eff71c379817d307dda7e2b7ebf7ec67f1d; 0x80a5845b885d88618a668b778bd58fdc906097099ef4]);
  (921808304722794000, [0x4ef25174519b52dd53055b9b5c9b5cf65d2e5e9560c563a16548665a6b7b6ccc70f774f676ca7e967ea4808780dc80fa; 0x82088863899689c68ecd91c796e897f597fb9d3f9df99e3d9e70]);
  (931339322703226500, [0x4e1d4e3d4f20507f50b3511f5374537b54215f555f7c62d8684368d26b8b6b986c606c9978f77b4b7d7280f681a082a6; 0x83f286068b5c8c318e2a8e448f158f7b91e9926d9304949294bd9646967897529e97]);
  (941875374269009100, [0x503c5099533a5340536253c8541156ed5712575b58c758f059075cf062df62ec64ec66ff67686790694a6cab70bc70df; 0x714971597372739b7455746a768476e77acb7d1a7da07ea77eff807280a081788292830483b7871c8ca88d278ecb8f67; 0x92b793ae95009547971e9a579a8c]);
  (953653677834647500, [0x4f544fa04fe053565360539f57c359565b585f275f975fc36148670d6b966deb6e7f6fd5734e738774dc76ae7f8a805e; 0x83dc8ce38d6491d4948795fb975e]);
  (967006817097099800, [0x4e184e304ed64ef74f3d4fdd50f952fb53006302639b688169886a7c6ada6ade6bcd6eb472b672c0732a75317a3d7ae5; 0x7b527bc07c2a7c4d7d047e2e7ea67f2980c08108810981398282829c8302852c856a874787f98805898b89c18a9e8b93; 0x8ba98bed8c508c6c8eab8fb98fc79020904e908a916e97f39b5a9c7c]);
  (982421885079825500, [0x4e3e51a0521152b352de5511583159a55b9862a5655965996811683768c96a236a396bd76cc96dd86e5872ee73457537; 0x77ed79fb7c987db27f517ffc8209836083b283c784ee85ba8a348bc98ca08d1f8f388f93905391ce924092b994be9508; 0x971c9759975c99dd9a7c9f529f7f]);
  (1000654040759221000, [0x4e604eae4f4d500d52005207523055665a015b995ba25bc65bfc5c0e5e84622a631d64be654c65746575672f678167f3; 0x697569a86d4b6daf6e2c6ee96ef46f2b6fa16fc070587538788e789778b37a3b7af97b567cae7ce77d617de87edc7f16; 0x7faf7fd280b2812b813181f382bd8336838a838e86a8885389c089c28abf8c038cbb8d0a8d398d5e8fb18fed9152916c; 0x9209935b94a0953b983b9891]);
  (1022968395890642000, [0x4e244e2a4e4f4ef6500b50765169526a535153f7540e54cc54e9558355b15676587558e4597d5a465bf95c0d5c185d69; 0x5de85e8a5f0f5f655f665f855f8c6155623f626b62916383649064916563657065786aac6e146f01718a780279bd7aff; 0x7b7e7bad7c3d7f3a80cc8111816682f782f984b2860b865f866b87f28a318a988bb88bf18cac8d238f4d8f9990c1918b; 0x919b97cc97e799969b319e1b9e739ed49f0e9f3b]);
  (1051736603135820000, [0x4e0a4ecb4eec4fa34fb65011501951dd5239524a524e5267528752a952e454aa54e555615589582a5922594b596e5bb8; 0x5c3a5e945e975e9a5f815fb561c9644664fa65bd65e966566689676f677e67b668a66c616db26e176ef26f067075722a; 0x72c473b073fe7533753e75ae762176d776d876dc76e476f8793e7cb17d207de37e5e7ed57f188001817f818f81c28299; 0x82b3835083d484188463851785a6864e898f89c48a2a8a628acb8b808bbf8be28bf78bfb8c618cde8cea8d288d4f8fc5; 0x90039009907890a69432956f963b964d96fe9727974898069838987a98889905997c]);
  (1092283113946636600, [0x4e114f554f574fb550125091518d519951b351cc52245347538253cc53d6552e56685728574f57d4580258d558de5904; 0x5986599d59d459fb5a5a5be85beb5c385c495c4d5c5c5e265e365e725e795e935e9c5eab5ee05f025f205f315f355f62; 0x5f7160016025611b611f614b6253628a62cc62dc6325639863ee63fd652c6591665266ec671b6770678467d468ee68f1; 0x69cb6a1f6a596bbf6c7a6c836ce56cf36da46dc76dee6eaf6ecc709470b972317236752b757075be75db7801787c788d; 0x78bc78fa7919798f79cb79cd7a2e7b977bee7c437c7b7e317eb57fd4803681658212829082c4835f846b84a185848588; 0x85fb865586cb88708a0a8adc8baf8c0d8f9b90019010915a916f919c927b92ea932293c894b194ec94fa94fe958995ed; 0x969c96d9978b9808985e987b98fe99709b429ebb9ece9ed19ede]);
  (1161597832002631000, [0x4e0b4e274e704e714e734e824f364f704ff1503e504f50a850be513251ac51bb51cd51cf520a521252175237523a5272; 0x5283538653f2544b54a854b3553155765580559c55aa560c56e0574a579258c158d859735a745b305b545b555bb95bd2; 0x5c015c0f5c155df25e035e7b5e875e8f5f175f695f8b5fa15fc6600061b661f7620f62326276627f629762db633d63d0; 0x64ad64c0654f6751682168386846685168c069396aa26b226b616b776b8a6bc06bc16c2e6c406cbf6cfd6d176dcb6e1b; 0x6f316f586fa4704c70ad716e719f727272d77389759775c775eb7642764776c876ea770177207766777e77fe789878be; 0x792c795679a679ba79df79e97a007d097d0b7d447d9c7db87dbf7e617e6a7eab7eb67eb97ec47ed87ee37ef57efc7f9f; 0x7fa57fc5809d80af817982af8361839384758499867987fe886588dc89bd89c88a008ae78aee8c108c4c8ca18cb78d22; 0x8dd18df38f038f098f7d8f83925b92789318937593a294a894c594f09524952e958395ea96489650967396cc96f39742; 0x9774984c989899b199b39a6e9a709d519e43])
].
(** prob_emit.go:78181-78234 probEmit, state 333 *)
Definition emit_333 : list (Z * list Z) := [
  (223219615817829900, [0x5566]);
  (224794451514643800, [0x54c8]);
  (261831830344333260, [0x9686]);
  (265340962325460250, [0x556a55b3]);
  (323407882038785740, [0x53fd5630]);
  (325558502560882120, [0x5431]);
  (332302630640435400, [0x88e191cc]);
  (344664026237153000, [0x5601567c]);
  (355786589748175470, [0x54d75629]);
  (371693059211144200, [0x565c5695]);
  (375202191192271200, [0x5495]);
  (378838955609358700, [0x547c54e7]);
  (382612988407643400, [0x5440]);
  (386535059722971530, [0x549a]);
  (394873220616876660, [0x54af]);
  (399318396873960020, [0x54bf6ef47b54]);
  (403970398437449300, [0x5f537576]);
  (413978744293147600, [0x4e524e538f5f8f70]);
  (431163769985813500, [0x560e]);
  (444516909248265800, [0x53ee]);
  (459931977230991600, [0x5288]);
  (488700184476169700, [0x4e01561f5693]);
  (547478850966381500, [0x53ed552793d793d894ff9535]);
  (569793206097802500, [0x558762c996f6]);
  (598561413342980700, [0x51ac]);
  (639107924153797050, [0x5471]);
  (708422642209791600, [0x513f515254b454d25660])
].
(** prob_emit.go:78235-78237 probEmit, state 334 *)
Definition emit_334 : list (Z * list Z) := [
  (8134563945395240, [0x501f]);
  (254944517092557140, [0x4e4b])
].
(** prob_emit.go:78238-78267 probEmit, state 335 *)
Definition emit_335 : list (Z * list Z) := [
  (62495191040325620, [0x65b9]);
  (152462517095957260, [0x516c]);
  (155842149086217700, [0x5343]);
  (463104465718847800, [0x5398]);
  (514439872730782700, [0x74e6]);
  (550651339454237800, [0x8def]);
  (552486253321057500, [0x5c14723e]);
  (585028493364520200, [0x82f1]);
  (646932414205142600, [0x6beb]);
  (662347482187868400, [0x5c0f5f0f]);
  (694889722231331200, [0x5fb76c0f]);
  (731662200243862950, [0x6c5e7c73]);
  (772208711054679400, [0x4e004e5d516b]);
  (790440866734074800, [0x5fae]);
  (841523429110673900, [0x683c88e191cc]);
  (882069939921490400, [0x6d77]);
  (951384657977485000, [0x520658eb63fd652c6cd5])
].
(** prob_emit.go:78268-78268 probEmit, state 336 *)
Definition emit_336 : list (Z * list Z) := [].
(** prob_emit.go:78269-78269 probEmit, state 337 *)
Definition emit_337 : list (Z * list Z) := [].
(** prob_emit.go:78270-78295 probEmit, state 338 *)
Definition emit_338 : list (Z * list Z) := [
  (78706508192852030, [0x4ec0]);
  (147083824004619610, [0x4e489ebc]);
  (239331266338864700, [0x4f1a6703]);
  (239583049938098820, [0x65f66642]);
  (289412986332779850, [0x4f55]);
  (382154727466671050, [0x4ed6]);
  (417922171893852700, [0x4e2a500b]);
  (418423426076207100, [0x4e00]);
  (430705509044841150, [0x4f195925]);
  (552629536690513600, [0x5bb6]);
  (592219102399715000, [0x958095e8]);
  (598103152402008300, [0x65e9]);
  (699263243569856300, [0x70b99ede]);
  (707964381268819300, [0x53e3]);
  (809124472436667300, [0x8a318bb8]);
  (878439190492661800, [0x96359663])
].
(** prob_emit.go:78296-78296 probEmit, state 339 *)
Definition emit_339 : list (Z * list Z) := [].
(** prob_emit.go:78297-78298 probEmit, state 340 *)
Definition emit_340 : list (Z * list Z) := [
  (0, [0x4ed6])
].
(** prob_emit.go:78299-78299 probEmit, state 341 *)
Definition emit_341 : list (Z * list Z) := [].
(** prob_emit.go:78300-78348 probEmit, state 342 *)
Definition emit_342 : list (Z * list Z) := [
  (74337745038172330, [0x51675185]);
  (232926989075023360, [0x4e2d]);
  (251159144754418800, [0x8fdc9060]);
  (279300390698237380, [0x6d77]);
  (293802967903263120, [0x5e95]);
  (374751585167672640, [0x958095e8]);
  (394818654713887750, [0x5317]);
  (403087826298399100, [0x811a8173]);
  (404827000569586000, [0x4f4e]);
  (415949564080608400, [0x5730]);
  (435365165524704200, [0x4e4b]);
  (440244181941647400, [0x6cc9]);
  (453597321204099700, [0x5357540e5f8c6d41]);
  (459481371206393000, [0x89d2]);
  (479548440752608100, [0x897f]);
  (483322473550892800, [0x524d]);
  (500027882017209450, [0x5bd2]);
  (531873255129062900, [0x62407a76]);
  (545226394391515200, [0x5c945f628def]);
  (552637191606887300, [0x5757584a]);
  (569342600073204000, [0x96349670]);
  (578873618053636500, [0x5408767d]);
  (614541112447509700, [0x843d]);
  (629956180430235500, [0x90ca]);
  (648188336109631000, [0x5c046c5f98a898ce]);
  (699270898486230050, [0x5c719014]);
  (809132127353041000, [0x540c8fc7904e90539675])
].
(** prob_emit.go:78349-78567 probEmit, state 343 *)
Definition emit_343 : list (Z * list Z) := [
  (164249273118906160, [0x534a]);
  (190799179446192400, [0x5143]);
  (288882104747365040, [0x5e74]);
  (334129219795774550, [0x4e00]);
  (335855260489074550, [0x4e16]);
  (342840080864865240, [0x7d007eaa]);
  (351361047882902900, [0x671f]);
  (372664016390631000, [0x5317]);
  (398132955320374250, [0x6708]);
  (404411167316019800, [0x4e09]);
  (404844068424978400, [0x65f66642]);
  (410190553215084200, [0x56db]);
  (429296076891355100, [0x4e8c]);
  (434410828008049200, [0x751f]);
  (436770819542136600, [0x971c]);
  (438274607278590600, [0x4e45]);
  (442926608842079900, [0x4e2a500b]);
  (444204581506719800, [0x9636968e]);
  (446810592173706300, [0x566890a3]);
  (451195780426591200, [0x77f3]);
  (455062694542506650, [0x5e866176]);
  (456871062085836200, [0x4e0d]);
  (458712734764459400, [0x6e05]);
  (466037780938418600, [0x513f5152]);
  (467650719131406940, [0x653e]);
  (475249309829199200, [0x4e9b]);
  (479276699742993200, [0x53e0758a]);
  (490372406801591500, [0x5927]);
  (498334169598060700, [0x523b]);
  (501135473220828050, [0x5047591a672b]);
  (502854713274865350, [0x8a958bde]);
  (506384491482967700, [0x79cb]);
  (510666491201260500, [0x5a20]);
  (511924369421946600, [0x65b0]);
  (516455889043150800, [0x5239524e]);
  (517120343315017600, [0x6625]);
  (526185780141830800, [0x773c]);
  (530664140404528100, [0x7f577f85]);
  (532202632288476000, [0x4e94]);
  (534555682029495500, [0x6c34]);
  (538604818164969150, [0x660e]);
  (547230852593409800, [0x5bb5]);
  (548135836145401600, [0x9633967d]);
  (554710973901679700, [0x4e0b]);
  (555686591396216100, [0x4f0f]);
  (560712774874305000, [0x521d]);
  (561749053577859600, [0x76c6]);
  (562796183564589100, [0x53e4]);
  (563854394497642800, [0x606970ad]);
  (567097922072958200, [0x5348]);
  (570450191276822600, [0x91d1]);
  (576299811944983450, [0x65e6]);
  (599218398522000700, [0x7136]);
  (600745145735079500, [0x96359663]);
  (613878745941188250, [0x7559]);
  (615648703651128300, [0x51bb51cd5316]);
  (626981572181828600, [0x5982]);
  (629001842913580600, [0x51c66e96]);
  (637517623747611200, [0x591c]);
  (639764909332817100, [0x51ac]);
  (642063861155287000, [0x606f]);
  (644416910896306400, [0x4e0a]);
  (651827708111678600, [0x4eba62dc]);
  (654425256752004600, [0x66136d3b]);
  (662649066575701900, [0x590d]);
  (671610282444670600, [0x6574]);
  (681454289725995800, [0x5b55970e]);
  (688600186124210400, [0x52a852d580b2]);
  (696296290237823200, [0x5375]);
  (700378489689848700, [0x4f116709]);
  (704634451131728200, [0x77ac884c8925]);
  (709079627388811700, [0x661f]);
  (713731628952300900, [0x540e5f8c7d937ecf]);
  (723739974807999200, [0x524d8f298f88]);
  (729146696935026700, [0x5915]);
  (734862538319021700, [0x554660c5658b77209f4b]);
  (740925000500665100, [0x4eb289aa]);
  (754278139763117400, [0x5c14723e727290a6]);
  (761688936978489600, [0x5b58928594dc]);
  (769693207745843200, [0x5883]);
  (778394345444806200, [0x5e085e2b5f53665a7576]);
  (787925363425238700, [0x6027628a]);
  (798461414991021300, [0x4e607fd2]);
  (810239718556659700, [0x516b51b0544a57a9580a65f1]);
  (823592857819112000, [0x5ddd917f91c0]);
  (839007925801837700, [0x4e5d519b7a578ecd]);
  (857240081481233100, [0x4e1a4e2d5386597359875a66679c696d6b77793c79ae]);
  (879554436612654200, [0x51685b5c5efa62128e489645969b]);
  (908322643857832200, [0x4ea75272534e540d570657135730593465e568856c116cb3752283ef8ca88d278d8a982d]);
  (948869154668648700, [0x4e50509952b352de59075f71620f62326a026b6674037d228fb096c69813987f]);
  (1018183872724643300, [0x4e11522952a152d953f6572367d368116a396b636bd2738b76ca79817ae58056844988c588dd8a628be2919c])
].
(** prob_emit.go:78568-78568 probEmit, state 344 *)
Definition emit_344 : list (Z * list Z) := [].
(** prob_emit.go:78569-78571 probEmit, state 345 *)
Definition emit_345 : list (Z * list Z) := [
  (0, [0x4e2a500b])
].
(** prob_emit.go:78572-78572 probEmit, state 346 *)
Definition emit_346 : list (Z * list Z) := [].
(** prob_emit.go:78573-78573 probEmit, state 347 *)
Definition emit_347 : list (Z * list Z) := [].
(** prob_emit.go:78574-78574 probEmit, state 348 *)
Definition emit_348 : list (Z * list Z) := [].
(** prob_emit.go:78575-78575 probEmit, state 349 *)
Definition emit_349 : list (Z * list Z) := [].
(** prob_emit.go:78576-78576 probEmit, state 350 *)
Definition emit_350 : list (Z * list Z) := [].
(** prob_emit.go:78577-78577 probEmit, state 351 *)
Definition emit_351 : list (Z * list Z) := [].
(** prob_emit.go:78578-79431 probEmit, state 352 *)
Definition emit_352 : list (Z * list Z) := [
  (159910916676694900, [0x4e0d]);
  (289833795622995200, [0x5473]);
  (294345380594257900, [0x5229]);
  (352211479060416850, [0x5f537576]);
  (361531374122271900, [0x5f97]);
  (376024776594505370, [0x6c926ca1]);
  (378598185222644200, [0x52a9]);
  (382060777916016500, [0x70b99ede]);
  (404206609461068800, [0x4e0a]);
  (407632253651609600, [0x64166447]);
  (413616092344972850, [0x6b21]);
  (418351327284953400, [0x573a5834]);
  (418675126812330860, [0x751f]);
  (428314311379837500, [0x4e4b]);
  (428791639255103300, [0x4ec0]);
  (433193327796780600, [0x753596fb]);
  (457719463453563500, [0x6e90]);
  (468326537749604400, [0x503e50be]);
  (472312572678925200, [0x68376a23]);
  (472682943472673700, [0x4e0b]);
  (473614916667553900, [0x9645969b]);
  (476079496388236740, [0x93ae9547]);
  (479198657636037400, [0x5e02]);
  (486168691161931700, [0x76ca]);
  (486594223718945400, [0x8d77]);
  (499067903181041900, [0x4e1a696d]);
  (500773182019313900, [0x73a9]);
  (504528316584527100, [0x4f18512a]);
  (504783744565036850, [0x51b36c7a]);
  (505039826651204200, [0x8db3]);
  (507374563050903300, [0x606f]);
  (507637375291530300, [0x68b0]);
  (513601201923503400, [0x6027]);
  (520840251565529000, [0x5e74]);
  (535358452549978800, [0x4ea4]);
  (541442618475603300, [0x5728]);
  (542183362603389400, [0x610f]);
  (551937678034253200, [0x5927]);
  (552760727947904800, [0x898b89c1]);
  (554008145370422300, [0x5236]);
  (559159498815433100, [0x52a852d5]);
  (560489895378069400, [0x62db]);
  (560937323417561550, [0x505c]);
  (568382621237036500, [0x51fa]);
  (568866883684615300, [0x8aaa8bf4]);
  (569842501179151700, [0x773c]);
  (572827797494119800, [0x80fd]);
  (574354544707198760, [0x6709]);
  (579618918055740900, [0x5931]);
  (583476145534364800, [0x505a]);
  (588074656858547200, [0x70ed71b1]);
  (588664629071266000, [0x5238]);
  (593514064065127100, [0x5f027570]);
  (597311988871648800, [0x60ef61638001]);
  (599266448478945800, [0x4e9a4e9e]);
  (601933273187161900, [0x52a059048655]);
  (602611241885699700, [0x65706578]);
  (604673170605973400, [0x5f0f]);
  (605370037537582650, [0x5b50]);
  (606778511525756600, [0x8877]);
  (608929132047852900, [0x5929]);
  (611127022719730500, [0x578b62587d507ed3]);
  (611870520568482200, [0x7a7a884c]);
  (614901055518015100, [0x5225522b]);
  (615673260127406150, [0x5fc5]);
  (617235791917714200, [0x813e]);
  (618026309868425550, [0x51c66e96]);
  (622905326285368800, [0x4f866765]);
  (627161287727248400, [0x4e8b7d007eaa]);
  (628034655724123900, [0x5c0f]);
  (628915718692339350, [0x77098cf48d56]);
  (629804613434063900, [0x4eba]);
  (630701480432340000, [0x4e00]);
  (631606463984331800, [0x529f]);
  (637215410649436100, [0x8fd0904b]);
  (638181601740609850, [0x628a9f619f84]);
  (639157219235146300, [0x7740845791cf]);
  (641137481964764260, [0x4f539ad4]);
  (643157752696516200, [0x8fdb9032]);
  (645219681416789700, [0x4f5c]);
  (646266811403519400, [0x5426]);
  (647325022336573000, [0x4e3b5730604b6200]);
  (649475642858669400, [0x57478fb9908a]);
  (650568549911888400, [0x6cd5]);
  (652790863590359400, [0x592a]);
  (655063688698115100, [0x56e0]);
  (657389374914541800, [0x5e8f6a21]);
  (659770439783913600, [0x5b98]);
  (660982575837148100, [0x5ea6]);
  (662209585096329500, [0x4f4f5916]);
  (664709715316871200, [0x7d307ec6]);
  (665983617894614300, [0x6d3b6f20]);
  (667273958378205000, [0x51755f8076ea8361]);
  (668581166534940200, [0x670881118166]);
  (672608556448734250, [0x6210]);
  (673987888661967900, [0x6587]);
  (676804976358637500, [0x674296dc]);
  (678243850103847500, [0x61278a8d8ba4]);
  (679703730045962700, [0x55b7567462988ad68bba8fc7904e]);
  (681185238624476800, [0x52176c11]);
  (682689026360930800, [0x5200671f]);
  (684215773574009700, [0x684c6cab]);
  (687341027924420100, [0x5b575b665b78]);
  (688941062059064300, [0x54ac72627d717edf]);
  (690567114146242300, [0x54c15b9a]);
  (692220044341363300, [0x543577e598a898ce]);
  (693900756173001500, [0x9762]);
  (695610199508931400, [0x4f17624b773e]);
  (697349373780118400, [0x644664fa]);
  (700921182040326300, [0x57088a668bd5]);
  (702756095907146000, [0x4fd7601c6190]);
  (704625309208361200, [0x8f158f7b]);
  (706530128705430600, [0x4f1178b07dad7ef4]);
  (708471937291140800, [0x8b498bc1]);
  (712472470752510740, [0x7528]);
  (714534399472784300, [0x778c]);
  (718790360914663900, [0x571f5f0063078b66958b]);
  (720988251586541400, [0x4ee3543e652f683c8abf8c03]);
  (723235537171747300, [0x535555ae593459cb8c61982d]);
  (725534488994217150, [0x53e36e0d6f2c7d617edc95f99b27]);
  (727887538735236550, [0x53ef613f6bd26c146c239858]);
  (730297293893142600, [0x660e]);
  (732766555152179800, [0x65cf6b226b616c5f6e388d70904a]);
  (735298335950608700, [0x63a9809a]);
  (737895884590934800, [0x4e8660f3725b7de37f1899ac9a6c]);
  (740562709299151000, [0x56fd570b92b393e19510955c]);
  (743302606717962360, [0x51b75bab5bae5f2f5f4e]);
  (746119694414632000, [0x56b77701]);
  (749018448101957300, [0x6bb771df7cca8425]);
  (752003744416925400, [0x53825ee065b9]);
  (755080910283600700, [0x81f4]);
  (758255780115058800, [0x4ea752065c3e75229f3b]);
  (761534762397357850, [0x5176526752875bf95c0d635f640d906e]);
  (764924917564926000, [0x56e257185fd7625368386cbb7b977f627f77958095e8]);
  (768434049546053000, [0x547d8499]);
  (772070813963140500, [0x54c85f395f485ff579d8817981ea9769]);
  (775844846761425200, [0x5bb67406]);
  (779766918076753300, [0x539f54c665576d698d25]);
  (783849117528778800, [0x54085df462e564c1800c886588dc]);
  (788105078970658500, [0x4e165883611f820c]);
  (792550255227741800, [0x4e714e82620f6232]);
  (797202256791231100, [0x4fbf53cd55f7673a6a5f6b7b6b966c42754f79cb7e2e7f298a088ba18ddf]);
  (802081273208174200, [0x4f0f5de5609668398170]);
  (807210602646929400, [0x540e5e735f8c600160b6614b6bd4811691dd948895f7]);
  (812617324773956900, [0x547c590d644a65246563732e737b77ed8f498f6c]);
  (818333166157951700, [0x517b5e388df3990a]);
  (824395628339595300, [0x5e9461c963116b8a7531770b80e18150822c8da3]);
  (830849480453352400, [0x4e2a500b517365f666426bdb78d57a00827295dc9ad8]);
  (837748767602047600, [0x4e2d51435212528361d261f67136786e78ba82e58e66]);
  (845159564817419800, [0x4e454e50580659825e995edf5f8b63a86421670b672f6a026bfd6d0b76f978347d197e2b7eb87f1d88538c46959295f2]);
  (853163835584773400, [0x53d856f05c945fc3636364176ec5706d77aa804a8b8a932f951996ea9b549ed1]);
  (861864973283736400, [0x4e2b4fee5149516c5c04793c79ae7d1a7ea7934b95059577957f96f698e29965]);
  (871395991264168800, [0x4efd53f867406bba6c616d417db27dd27eea7f5185cf8a9e8bed8dfa8eb29152927494519700]);
  (881932042829951400, [0x503c514b566857235bb35e3d5f71602a626b62c6636e638364da6a2a6a6b6b656d016f54788d79197af97e547ec78056; 0x843d8cea8d289760]);
  (893710346395589800, [0x4e49524d534a5356542c559c57fa638264c2678169757aef7da07eff7fa9807d832c89d28ac78c088ce38ef88f749435; 0x94c1992899869aa89b3c]);
  (907063485658042100, [0x533a5340540c547557df62f765f176ae88c588dd897f8d848d948fab8fae90e891d893969489950196cc97099ef4]);
  (922478553640767800, [0x519b523a5a045a415c1a5c8160c562b962cd653e6b726f0f753b756b767d793e79817a0b7b497fa482e68461864e8b5c; 0x8c318e768ecd97079b779c7f]);
  (940710709320163300, [0x4ece5106536753d15584559857cb5b9c5c425c645ead5f9e628065af65bd676167b6689d6d17767c79e77b547d047ea6; 0x80c381e58a188b588bb08bc68dd1901f959395f4965096de9e219ebb]);
  (963025064451584400, [0x4e304f7f513f514d515251ac536b53ca540354d15507555e585e5c3a626c639263da6548662f677f68636a946c346c49; 0x6f2272ec73688054806f8584885b8c508ce28d24907f98c498d89ea59ea69ec39ec4]);
  (991793271696762300, [0x4e3e5145519951b252b252c152c3538453d75b695bb95beb5c41623365ad65b76c9f6cfc6d4e6dae6e9d6f516fdf70c2; 0x721b731b73b073fe740375b97620795e7b11817f8209885d898f89c489e38edf8f6f9053963496369670968e]);
  (1032339782507578900, [0x4e244f194f3c5012516953f0541b55dd56fa592559735bc65bcc5f555f62627f62df6302639b64ec653f65e5663e6797; 0x680768426a196b666ee56f6e6feb7a3b7c927d557edd7f8a80cc812b813188618a5e8aa48bcd8bef8cb88d378eab9000; 0x904d90ce9304964d986f9f4a9f50]);
  (1101654500563573400, [0x4e094e894f1a51655177529b52c7534153ea5531554f55d356345706571358ee58ef5957597d5c555fb7656265976703; 0x67aa69cd6b476ce86d1e6ee16eff706b722d724772677334742276f478b479cd79d17a2e7acb7b5b7be97d937ecf8155; 0x820d83dc853d861186c78b0e8c1c8cbb8cc48d398d3f8d9f916c925b92d2932294b194c5950b958995ed95ee96049732; 0x985b98a098ef9921996d99859a0e9a919b259b2e])
].
(** prob_emit.go:79432-79432 probEmit, state 353 *)
Definition emit_353 : list (Z * list Z) := [].
(** prob_emit.go:79433-79433 probEmit, state 354 *)
Definition emit_354 : list (Z * list Z) := [].
(** prob_emit.go:79434-79435 probEmit, state 355 *)
Definition emit_355 : list (Z * list Z) := [
  (0, [0x540c])
].
(** prob_emit.go:79436-79590 probEmit, state 356 *)
Definition emit_356 : list (Z * list Z) := [
  (174840504024697770, [0x4ee3]);
  (216146031762181770, [0x4e1a696d]);
  (237985326617742960, [0x51fa]);
  (241236666591338400, [0x4f539ad4]);
  (280990731926385600, [0x52a852d5]);
  (298244086969164800, [0x5143]);
  (333418057844364930, [0x68b0]);
  (343442599343470520, [0x51c66e96]);
  (354585172859562200, [0x7403]);
  (369305574329198400, [0x606f]);
  (378046768107206880, [0x4f1a6703]);
  (392504890988317620, [0x5e38]);
  (403660139578892350, [0x6c146c23]);
  (408105315835975700, [0x7bc48303]);
  (412757317399465100, [0x5b57]);
  (413439913906505000, [0x672c]);
  (433888226766185700, [0x9000]);
  (476129693408379500, [0x7531]);
  (477420033891970250, [0x898f89c4]);
  (485532588373207100, [0x6717]);
  (495912267741371500, [0x5e015e638cea8d289645969b]);
  (512902171420911200, [0x7d047ea6]);
  (526785815906332800, [0x958095e8]);
  (531134327100306700, [0x5229]);
  (538033614249001900, [0x9178]);
  (540443369406907900, [0x5225522b59048655]);
  (548041960104700100, [0x4ea77522]);
  (550708784812916200, [0x6027]);
  (553448682231727700, [0x7406]);
  (559164523615722500, [0x5e74]);
  (562149819930690700, [0x80fd]);
  (568401855628824000, [0x57df]);
  (571680837911123200, [0x6cd5]);
  (578580125059818200, [0x5b50904d]);
  (585990922275190500, [0x56fd570b]);
  (589912993590518600, [0x4e2d7acb]);
  (593995193042544100, [0x52365e02]);
  (598251154484423700, [0x7b49]);
  (607348332304996400, [0x516c65876c11793e]);
  (612227348721939500, [0x4e3b]);
  (622763400287722200, [0x5408899689c6]);
  (628479241671717050, [0x670978b18f498f6c9e7c]);
  (634541703853360500, [0x547d67816975]);
  (647894843115812800, [0x9f619f84]);
  (655305640331185000, [0x683c]);
  (681542066777934100, [0x53f7865f]);
  (692078118343716750, [0x68486a217d507ed39759975c]);
  (703856421909355050, [0x65cf724c]);
  (717209561171807300, [0x6d3b]);
  (732624629154533200, [0x578b5bb37e547ec7]);
  (750856784833928600, [0x4e8b5ea663777cfb91d1]);
  (773171139965349600, [0x4e0b4f5c4fd757306f207528753596fb]);
  (801939347210527700, [0x4ed84f1750ac50da517551925f0f5fc360f3660e66706ef4773e]);
  (842485858021344200, [0x4e495217533a5340535555ae678469cb7fa980ce]);
  (911800576077338800, [0x505c56e256ed56f05712571859275b885bcc5e95653e6b8a70ed71b1753076df7d1a7dad7ea77ef4884c98fd9971])
].
(** prob_emit.go:79591-79591 probEmit, state 357 *)
Definition emit_357 : list (Z * list Z) := [].
(** prob_emit.go:79592-79592 probEmit, state 358 *)
Definition emit_358 : list (Z * list Z) := [].
(** prob_emit.go:79593-79593 probEmit, state 359 *)
Definition emit_359 : list (Z * list Z) := [].
(** prob_emit.go:79594-79595 probEmit, state 360 *)
Definition emit_360 : list (Z * list Z) := [
  (0, [0x5440])
].
(** prob_emit.go:79596-79596 probEmit, state 361 *)
Definition emit_361 : list (Z * list Z) := [].
(** prob_emit.go:79597-80273 probEmit, state 362 *)
Definition emit_362 : list (Z * list Z) := [
  (329046267166683440, [0x5c0f]);
  (351599208247957230, [0x6084]);
  (364318406461946640, [0x8f158f7b]);
  (379466670797435500, [0x9ed8]);
  (384921228371440800, [0x9577957f]);
  (387530739449725960, [0x5927]);
  (391658309482949100, [0x5b9e5be6]);
  (401351533500568450, [0x9759975c]);
  (414094294469218900, [0x6e05]);
  (427999519980686200, [0x7cca]);
  (443336918056594800, [0x695a]);
  (447215520560110500, [0x6de1]);
  (449212733878802000, [0x9ad8]);
  (461786701678249840, [0x767d]);
  (463766964407867800, [0x8fdc9060]);
  (464100854534419200, [0x4e4e]);
  (465787235139619800, [0x563b]);
  (466469831646659700, [0x6643]);
  (471024033691351400, [0x539a]);
  (476929808655711400, [0x5bc6]);
  (477693171141218500, [0x5fd9]);
  (478077048771935150, [0x5df4]);
  (479237603383965900, [0x7d307ec6]);
  (481999120087263300, [0x544691cd]);
  (482399922227017200, [0x57286c886c89]);
  (484839067539433100, [0x51c06de8]);
  (485665518524422400, [0x88e191cc]);
  (486498856680336800, [0x5e725e79]);
  (489903440821308600, [0x751f]);
  (497081409060721700, [0x6dcb]);
  (498959398525881250, [0x6696]);
  (502333212489066300, [0x51b2885d]);
  (504814729401038700, [0x77ed]);
  (505318508804034400, [0x9ebb]);
  (506333745950436200, [0x82b1]);
  (507876192982999350, [0x6e9c]);
  (517096812369672700, [0x969096b1]);
  (521155340381180600, [0x60a0]);
  (523550664483429900, [0x8fa3]);
  (524158569091068000, [0x7d507ed3]);
  (526004775375041600, [0x5e73]);
  (526627830350105250, [0x76ea8361]);
  (527885708570791200, [0x65747d047ea6]);
  (530449951632125000, [0x6d0b]);
  (531101419734244400, [0x54c4614c]);
  (531757159788860300, [0x6ee16eff8584]);
  (532417228191995500, [0x6b7b]);
  (534423984497076400, [0x7aef]);
  (535784549702654300, [0x547c]);
  (537860748847497200, [0x96f6]);
  (539980969612557400, [0x64166447]);
  (543617734029644950, [0x660e72e08001817e9a30]);
  (545865019614850850, [0x606d656c]);
  (548163971437320700, [0x772f7787]);
  (548942185481526200, [0x6025]);
  (552117055312984200, [0x541f]);
  (552926776336246100, [0x6f09]);
  (553743107400162200, [0x8ff7]);
  (555396037595283300, [0x5b895f2f5f4e]);
  (557927818393712300, [0x51b7538b58d3]);
  (558786192762851500, [0x57065713]);
  (559651999037162900, [0x597d832b]);
  (563192191742254500, [0x958395ea]);
  (565010423650573600, [0x54a7]);
  (566862328427297300, [0x7da07eff]);
  (568749176857735600, [0x66f27d057ea2]);
  (569706121959350700, [0x9f4a9f50]);
  (571647930545060850, [0x843d]);
  (572633160189361940, [0x6a21]);
  (578757522713433800, [0x76f482e688f88f9b]);
  (581966354168583900, [0x530670d8]);
  (583059261221802900, [0x6b6a]);
  (584164244840461400, [0x5f205f3570ed71b1]);
  (585281574900273950, [0x4e2556b4649e6c6a98c498d8]);
  (587554400008029500, [0x5f537576]);
  (588710482248137200, [0x75388dcc]);
  (589880086224456250, [0x5dcd901a]);
  (591063531989156600, [0x6d1e9f13]);
  (592261151093828100, [0x624b]);
  (594700296406244000, [0x4f86541e67658338]);
  (595942548406099800, [0x5fae]);
  (598474329204528700, [0x51b080d6]);
  (601071877844854800, [0x6f06]);
  (602396400519856900, [0x51747cdf8208]);
  (603738702553070900, [0x8499]);
  (605099267758648800, [0x68ee7a777aae8e518ea1]);
  (606478599971882400, [0x54c86d536fc37a337a69]);
  (607877224169356400, [0x666e]);
  (609295687668552000, [0x660f8dc48e098e4c]);
  (610734561413761940, [0x4fbf523754ed557c6ecb968f96a8]);
  (612194441355877200, [0x6761689d788c]);
  (613675949934391300, [0x65b9]);
  (615179737670845400, [0x51625ffd601c6190]);
  (616706484883924200, [0x5feb]);
  (618256903537520700, [0x7a00]);
  (621431773368978750, [0x5475]);
  (623057825456156800, [0x55b7567475db]);
  (624710755651277900, [0x4f4e95f99b27]);
  (626391467482915900, [0x66766b636d456dfa75918fdf9072]);
  (628100910818846000, [0x5207677e751c79bf79c37d1b7eb7]);
  (629840085090032900, [0x6c146c23]);
  (631610042799972950, [0x535554fc55ae]);
  (633411893350240800, [0x626d67266727707f71e680e7]);
  (637116020518275800, [0x52fe633a771f]);
  (639020840015345200, [0x53e8]);
  (640962648601055300, [0x7dbf7ef5]);
  (642942911330673300, [0x604d670d]);
  (644963182062425200, [0x56de659c6cb977e9898f89c4]);
  (647025110782698800, [0x4e1d75f47d72]);
  (658025200304131700, [0x4eae5ba260da706b70c2721b783490a69edd]);
  (660378250045151100, [0x6602]);
  (662788005203057100, [0x542b62c9]);
  (665257266462094200, [0x516e625164b2]);
  (667789047260523300, [0x5495]);
  (670386595900849350, [0x4eb284ec89aa]);
  (673053420609065400, [0x7247]);
  (675793318027876900, [0x7f7582129a82]);
  (678610405724546500, [0x5b8c7b807c219686]);
  (681509159411871800, [0x53e0624e758a762676c87c0c82cd84bc]);
  (684494455726839850, [0x561f]);
  (687571621593515200, [0x5168519253bb]);
  (690746491424973300, [0x540160b662986ef47c72827382778e0f95f7]);
  (694025473707272400, [0x59315f6478e88e6d]);
  (697415628874840500, [0x5e386f8472b973367d6e7e107ec98c6b986b98a4]);
  (700924760855967500, [0x70757a84812b81319748]);
  (704561525273055000, [0x531d612379d88a8d8ba4]);
  (708335558071339700, [0x548c56d470c1720d917891ba]);
  (712257629386667800, [0x4ed456ca602a74697b5483b998bc98d5]);
  (716339828838693400, [0x5e7d62967d2f7e377f15]);
  (720595790280572950, [0x5520562e60fa]);
  (725040966537656300, [0x75af760b766b767277aa7d228d73]);
  (729692968101145700, [0x54bb5b5c7599]);
  (734571984518088800, [0x54d7562956b757ae9806985b987a98a099999ed1]);
  (739701313956843900, [0x4e0d4e4c56695bbd5bec6b226b616d256eda6efe70cf795e]);
  (745108036083871500, [0x559c560058025c425c646d516e296e3e6eab78d5871c878d]);
  (750823877467866300, [0x52c9591a5f375f3a5f69642d6591661f77ee788e817b81a990c19b319ec39ec4]);
  (756886339649509750, [0x52e4607360e8615861c7865a865b]);
  (763340191763266900, [0x5471585758a9590465f6664267426bdb6d827f9e865596dc9ee2]);
  (770239478911962000, [0x5e16616276297de97f13]);
  (777650276127334300, [0x51495a1c5ae95b64634f64786e7f6fd5723d758f7e437ef7888588ca8a738be6]);
  (785654546894687900, [0x51c452c353e45de560f6665566886dd2]);
  (794355684593650850, [0x51c95225522b593462d66cfc6dbc6df16f026f517a7a7cfe7ea080e18f5f8f709752982d]);
  (803886702574083300, [0x576658f05a095a77631170b97d467eca80728afe8bfa8d6b8fde90239ede]);
  (814422754139866000, [0x4ece4f5352295608584c5bb95c555eb85f9e5fc3624162bd65636d126de56e0c705176ef83bd97629ad4]);
  (826201057705504400, [0x534a548b571f592a6069611b61f568866ca56dc5701d714e723175bc9165]);
  (839554196967956700, [0x5065522e59a55d2d5d845eb767d46c796d366d41833584dd85cd8e66931a94ee99c19a73]);
  (854969264950682400, [0x55d656185653574e577760b262e363c0672872068721881f8df3908b96349670]);
  (873201420630077900, [0x4e504e714e82559855eb568556c159966014607961e867176a0275c57d277dca]);
  (895515775761499000, [0x4f3651d1540854e854e9556656e25718607660e160f46d9f6e4a6f23762a765f7691769a76b176ba774077667c388106; 0x84579053]);
  (924283983006677000, [0x50bb516b51cc51e15e625f00602f61a866f36734677f6a386c8c6df76f47701f71667cd97e8f7f20800c803780a580c0; 0x8139958b]);
  (964830493817493300, [0x4e1b520653e25fd2626c6324632863da64e06566658765f766e0672c679d6829695e6d786e5b761f767b76877bc07cbe; 0x7d687ed27f8e81f48282900f]);
  (1034145211873487800, [0x5012505c50f554c655275623574f58de59165a075b0c5c115c8c5e955f7b5fb9600f648569426a596d946da66f647136; 0x7405746f7c987dbd7df27e397ef07f087f2582cf847184ca8525852b86078cbc8d348d648e81959295f2])
].
(** prob_emit.go:80274-80274 probEmit, state 363 *)
Definition emit_363 : list (Z * list Z) := [].
(** prob_emit.go:80275-80583 probEmit, state 400 *)
Definition emit_400 : list (Z * list Z) := [
  (202499725849004260, [0x5927]);
  (263881450718006370, [0x597d]);
  (268997414952536600, [0x9ad8]);
  (281957447864790100, [0x65b0]);
  (296206336571839170, [0x5c0f]);
  (338466455614493500, [0x9577957f]);
  (346387019679737570, [0x8001]);
  (364369843083927950, [0x4f4e]);
  (395966725829320470, [0x5feb]);
  (396098555348925350, [0x8fd1]);
  (397107660512623400, [0x6df1]);
  (406883277065882000, [0x5c11]);
  (413131626196025400, [0x5168]);
  (415372394788169500, [0x65e9]);
  (422108050033999100, [0x96be96e3]);
  (424027494759613900, [0x5f375f3a]);
  (427930188107630100, [0x91cd]);
  (439348937333960600, [0x6e05]);
  (442620766796257400, [0x7d057ea2]);
  (444922704005260400, [0x70ed71b1]);
  (446973686743942200, [0x8fdc9060]);
  (460125037676433650, [0x9ed1]);
  (464894285360882700, [0x767d]);
  (475806924067822300, [0x6696]);
  (479636015367153800, [0x6ee16eff]);
  (480093294511000500, [0x7a7a]);
  (491213860977648600, [0x660e]);
  (492801044119535800, [0x77ed]);
  (494747388161173400, [0x53e45dee]);
  (499455560034514600, [0x5bbd5bec]);
  (499827077489700900, [0x9ec39ec4]);
  (501390097743717340, [0x4e45]);
  (505178672823711700, [0x65e7820a]);
  (508821901155994900, [0x5b9e5be6]);
  (510028243314613100, [0x8db3]);
  (520038999622030200, [0x51c06de8]);
  (520571928176838600, [0x8f158f7b]);
  (523332325293527900, [0x51b7]);
  (530628497791709550, [0x6613]);
  (534267346475708400, [0x5e7f5ee3]);
  (536093074455286440, [0x9999]);
  (539293830779413150, [0x7d307ec6]);
  (540094820890626000, [0x5f31]);
  (549153710488777000, [0x574f58de]);
  (554831711181628150, [0x5047]);
  (559716104087187900, [0x786c]);
  (560055406957479400, [0x9752]);
  (560623482713538300, [0x51c66e96]);
  (564811764492223200, [0x8cb48d35]);
  (565009980612622350, [0x82e6]);
  (565367762747410700, [0x5bc6]);
  (566087190310813500, [0x7da07eff]);
  (567176130290740300, [0x7d277dca]);
  (568482271308422000, [0x5bcc]);
  (568605601231557000, [0x539a]);
  (571315794209336050, [0x7cbe]);
  (579733004310890800, [0x7c97]);
  (580656798409384400, [0x8584]);
  (582011642772980000, [0x8edf8f6f]);
  (586238977284902200, [0x4e506a02]);
  (588321352976028300, [0x504f]);
  (589988479235523100, [0x6162]);
  (597937577587684100, [0x75db]);
  (599662237860093800, [0x7a84]);
  (599718370334203050, [0x6d456dfa]);
  (605496985322307700, [0x96349670]);
  (606093645803629850, [0x7a337a69]);
  (607237203255076900, [0x84dd85cd]);
  (607418966407209400, [0x4e2556b4]);
  (611630114942222000, [0x4f73]);
  (614909097224521200, [0x9f4a9f50]);
  (615105368141306000, [0x7d147eaf]);
  (620624938608516000, [0x602a]);
  (621668426337774000, [0x70759748]);
  (623931606383793700, [0x7a777aae]);
  (624938085045407700, [0x5c16]);
  (626467055493516000, [0x7d2b]);
  (626834567851305100, [0x607660e1]);
  (632359998930237200, [0x6de1]);
  (633376824273162500, [0x90aa]);
  (633849638392757100, [0x966996aa]);
  (638291224307860000, [0x8fdf9072]);
  (643025836367579900, [0x50bb]);
  (644508637194541700, [0x6b8b6b98]);
  (645302642248203000, [0x68d2]);
  (650950773532993900, [0x5fae]);
  (651044538190590300, [0x514751f6]);
  (651987052236548600, [0x719f]);
  (652747512175070500, [0x70c8]);
  (653225753163092000, [0x6e7f6fd5]);
  (656837663597200800, [0x7626]);
  (656937116613851700, [0x7a00]);
  (657736321666985500, [0x7d2f]);
  (658440904350305700, [0x6d536fc3]);
  (662881489344561500, [0x5b64]);
  (667639143321470700, [0x7262]);
  (668752740575519300, [0x95ca9614]);
  (670789010027407800, [0x9806987a]);
  (674514702862983700, [0x80d6]);
  (675348537354699100, [0x614c]);
  (676915778595462300, [0x65fa]);
  (677037359157551200, [0x6241]);
  (678138287708388200, [0x4fd7]);
  (678879031836174400, [0x6b226b61]);
  (682796146644847400, [0x5999]);
  (685804875883179900, [0x81ed]);
  (694397416286402300, [0x751c]);
  (696149285907299650, [0x810f81df]);
  (697334484966001100, [0x65f1]);
  (697632992650346400, [0x72ec7368]);
  (701596926239407300, [0x5de7]);
  (703322459248483500, [0x788e]);
  (709355258108606300, [0x4e11919c]);
  (710538703873306600, [0x51f99bae9c9c]);
  (712600632593580100, [0x8aa08bda]);
  (714883435849200200, [0x9661]);
  (719984723973568600, [0x5bd2]);
  (721301770292543100, [0x98fd9971]);
  (725953771856032400, [0x7126]);
  (726950789088017400, [0x59a5]);
  (727755622406300250, [0x77ee]);
  (729384986354910300, [0x602f]);
  (731250325414023600, [0x7384]);
  (733578472896279500, [0x80c08139]);
  (735088749714855200, [0x6d516e3e]);
  (737955539201812400, [0x8ce48d31]);
  (738403970446545300, [0x79bf79c3]);
  (738628942419946800, [0x60e86158]);
  (739761457355652100, [0x8302]);
  (740447174328265900, [0x6697]);
  (741137625862920300, [0x66a27545]);
  (743948115294931100, [0x75bc]);
  (744185927535427900, [0x575a5805]);
  (745142872637042950, [0x674296dc]);
  (746839883058889100, [0x5ae9]);
  (747576082702996000, [0x8150]);
  (749566198134725500, [0x52e4]);
  (750069977537721200, [0x826f]);
  (752627661716686200, [0x61d261f68106]);
  (754457778154926650, [0x82738277]);
  (754986879918368200, [0x8165]);
  (758496011899495200, [0x6e34]);
  (763567521157396800, [0x4fca]);
  (765906809114867400, [0x7dbf7ef5]);
  (766500282666848900, [0x597859e6]);
  (767097299365499200, [0x5e055e25]);
  (772321221275441200, [0x9759975c]);
  (773911079882221000, [0x54b8]);
  (777500372188281650, [0x75d27662]);
  (779513863029187300, [0x9165]);
  (780194137761462500, [0x50f5]);
  (781568729851926050, [0x91ce]);
  (783313974847048660, [0x75b2]);
  (785449287294105600, [0x70c2721b]);
  (787631192033569500, [0x6da96f807b28]);
  (793303790173647300, [0x4e56]);
  (794872449790417250, [0x920d949d]);
  (795268489912026900, [0x836b852d]);
  (800565043470018300, [0x92b39510]);
  (806601358442727300, [0x75f4]);
  (812082182092226800, [0x7a20]);
  (818379662008365600, [0x65f766e0]);
  (827262783379027200, [0x6d3c7aaa]);
  (832882239213391400, [0x6728]);
  (834045043012903300, [0x62d7]);
  (835815000722843300, [0x9a379a9a]);
  (836412017421493700, [0x9b3c]);
  (838836378582493000, [0x50268822]);
  (841951895360472600, [0x50b2]);
  (846483414981676900, [0x52a3]);
  (851230068705569200, [0x731b]);
  (858427418668078200, [0x5947]);
  (860691666343054000, [0x4fcf]);
  (869462224384964700, [0x7173]);
  (871142936216602800, [0x995e998b]);
  (874591553823719700, [0x81ca]);
  (879998275950747400, [0x614e762a765f]);
  (881867489251962600, [0x6ee56feb]);
  (885714117334742200, [0x9ecf]);
  (890740300812830900, [0x7cdf]);
  (898230431630142700, [0x5014]);
  (900477717215348700, [0x729f]);
  (916462587309538200, [0x993f998a]);
  (920544786761563700, [0x7cd9]);
  (926260628145558600, [0x52017070]);
  (929245924460526700, [0x79b3]);
  (943906271879714300, [0x5a075b0c]);
  (959029368852106700, [0x8fc2]);
  (963196638492163400, [0x8fa3]);
  (979323453251775600, [0x67d4]);
  (989859504817558300, [0x659c]);
  (992676592514227900, [0x80a5]);
  (998560642516521200, [0x86ee883b]);
  (1008091660496953800, [0x57065713917d91c5]);
  (1011481815664521900, [0x7d20]);
  (1014990947645649000, [0x8cca8d3c]);
  (1018627712062736300, [0x66b4]);
  (1022401744861021000, [0x5f2f5f4e]);
  (1030406015628374700, [0x7fb681bb]);
  (1034661977070254200, [0x9178]);
  (1153620383757637800, [0x985b98a0]);
  (1209581962551180100, [0x51c96dbc7ce8]);
  (1238350169796358300, [0x70e67169]);
  (1278896680607174700, [0x52fb530054cd6b6a6d3b97ff]);
  (1348211398663169200, [0x4e4f660f72e07e317eb57f9e])
].
(** prob_emit.go:80584-80604 probEmit, state 401 *)
Definition emit_401 : list (Z * list Z) := [
  (95753369040820420, [0x7f55]);
  (175701652078418210, [0x6089]);
  (200485268468876350, [0x5de7]);
  (201112229770235860, [0x6ee56feb]);
  (266118589212599230, [0x8fe5]);
  (322987889821253170, [0x5d2d5d84]);
  (382192996190110800, [0x66977518]);
  (513411635086727700, [0x60e86158]);
  (547058858748849000, [0x50f5]);
  (598141421125448100, [0x594766b475f4]);
  (638687931936264500, [0x575a5805614e]);
  (708002649992259100, [0x7d20])
].
(** prob_emit.go:80605-80833 probEmit, state 402 *)
Definition emit_402 : list (Z * list Z) := [
  (289010669925038800, [0x5947]);
  (311369757779191800, [0x79c0]);
  (321072436808606950, [0x79c1]);
  (327784084638732050, [0x4f18512a]);
  (339025606502503700, [0x654f]);
  (353154326046963660, [0x5140]);
  (358743673622274130, [0x6d0b]);
  (370014286086983600, [0x5bd2]);
  (371228056888426000, [0x5de8]);
  (373284332218077040, [0x96c5]);
  (376951880073917700, [0x4e308c50]);
  (389487353292645400, [0x8a738be6]);
  (389813617856127070, [0x69ae8363]);
  (389977150190200100, [0x8c6a]);
  (392462779400824700, [0x8870]);
  (401041965865161600, [0x9187]);
  (404577217736733500, [0x6062]);
  (407070156040986000, [0x8ca78d2b]);
  (419237565155921000, [0x606d]);
  (419457104212264650, [0x7766]);
  (422129869102846100, [0x5e7c]);
  (422582358562675100, [0x88f8]);
  (434616090108823100, [0x5ec9]);
  (436422590848587000, [0x7b037be4]);
  (437469720835316500, [0x9811987d]);
  (437733225599117050, [0x72ed72f9]);
  (441223512767223000, [0x66fc]);
  (442322424924782500, [0x6148]);
  (448592284346338900, [0x71e5]);
  (452797107970688900, [0x5be1]);
  (454342733794358100, [0x785578a9]);
  (456229582224796400, [0x8ae78c10]);
  (459128335912121600, [0x5351]);
  (462789310473377700, [0x832b]);
  (465190798093765100, [0x5cfb]);
  (465887665025374400, [0x6d016f54]);
  (467651379173985100, [0x6020]);
  (471644650207522200, [0x6deb]);
  (472015708147175800, [0x714c]);
  (473513863508737500, [0x90599065]);
  (484259778740212200, [0x52c3]);
  (486813108940728700, [0x983b9891]);
  (492579673125709600, [0x50fb]);
  (494889244605174600, [0x9119]);
  (498214966780822800, [0x6d69]);
  (499185848193518800, [0x51f86e4d]);
  (504701030201026900, [0x5f70]);
  (507312144601395400, [0x7d1b7eb7]);
  (522727212584121200, [0x5e7d61e6]);
  (525862265572528800, [0x9a559a84]);
  (526501245382406000, [0x5b7d]);
  (527144334415435000, [0x62d96df3]);
  (530423316697734100, [0x8d64]);
  (533813471865302300, [0x5ced964c]);
  (538039452794290500, [0x631a646f]);
  (538761477591639200, [0x74107463]);
  (548655472377129500, [0x707f71e6]);
  (553574496796206700, [0x8a6d8be1]);
  (557867001267910100, [0x5962]);
  (559636958977850200, [0x5bc2]);
  (569974794423233700, [0x97cc97e7]);
  (575052026960576100, [0x6c9b9163]);
  (577157367880359300, [0x806a8070]);
  (578226896792034050, [0x6b67]);
  (579307988402455600, [0x51c46dd2]);
  (580400895455674700, [0x9038]);
  (583753164659539000, [0x8650]);
  (586052116482008900, [0x660e]);
  (588405166223028300, [0x5f255f4c70708fc5]);
  (592041930640115800, [0x90029069]);
  (593284182639971500, [0x5197]);
  (594542060860657500, [0x70bd71be]);
  (598413512078726600, [0x6691]);
  (602440901992520600, [0x4fed5109]);
  (603820234205754150, [0x6e3a8d058d58]);
  (612521371904717100, [0x7f55]);
  (622052389885149600, [0x60ed615a6b797aed81c3]);
  (623733101716787700, [0x60f0]);
  (628951677033844700, [0x7f817f88]);
  (630753527584112600, [0x5a4960466052]);
  (636362474249217000, [0x5fe4]);
  (640284545564545000, [0x7620]);
  (644366745016570600, [0x66ae6b49]);
  (646472085936353800, [0x558470c1720d7d0a964b]);
  (648622706458450200, [0x827082719051]);
  (650820597130327700, [0x556c55c79d3b9e3f]);
  (653067882715533500, [0x6b66]);
  (665130681494395050, [0x5fae]);
  (667728230134721100, [0x60b2]);
  (670395054842937200, [0x8a588bce]);
  (681836089960711600, [0x53716773]);
  (684913255827387000, [0x5028]);
  (694757263108712300, [0x851a]);
  (698266395089839250, [0x4e3d9e97]);
  (717937424514444700, [0x82b399a5]);
  (727034602335017300, [0x78a7890a]);
  (731913618751960550, [0x79659088]);
  (748165511701738100, [0x6b39]);
  (760681825997138600, [0x5e9f5ee2607b60fb8174]);
  (767581113145833800, [0x614e]);
  (782996181128559600, [0x52a38fe5]);
  (791697318827522600, [0x52c777eb77ef83a0]);
  (801228336807955000, [0x61be9050]);
  (811764388373737800, [0x67176d4a6fc171e0908398e29965]);
  (823542691939376100, [0x707c7fe999ff9a8f]);
  (836895831201828200, [0x666e]);
  (852310899184554100, [0x5bde5f0275707fe083bd9676]);
  (870543054863949600, [0x54c09ee2]);
  (892857409995370700, [0x6168662d9686]);
  (921625617240548700, [0x538953b25d075e8460ab612871157165838a93269526]);
  (962172128051365200, [0x509155a7608560a6677068ee6d3d75be8ce28d248e479633967d]);
  (1031486846107359600, [0x4ec15937618e61a86566664f667a723d7cef82128da3])
].
(** prob_emit.go:80834-80838 probEmit, state 403 *)
Definition emit_403 : list (Z * list Z) := [
  (80829019959718840, [0x6d4a6fc1]);
  (98587721930903100, [0x60b2]);
  (170777381315496220, [0x7aed])
].
(** prob_emit.go:80839-80861 probEmit, state 404 *)
Definition emit_404 : list (Z * list Z) := [
  (138785418504488360, [0x603b7e3d]);
  (167506951303078160, [0x526f]);
  (192875325481890640, [0x539f]);
  (198949690747386600, [0x91d1]);
  (205076744026361140, [0x5973]);
  (293540502249380530, [0x7537]);
  (353839164840845000, [0x6bcd]);
  (433550794326079400, [0x96cc]);
  (442262044782294200, [0x91ce]);
  (446349300996475900, [0x9633967d]);
  (458001262157437150, [0x96c4]);
  (484893241757062900, [0x516c]);
  (524514676590664200, [0x8910]);
  (535913865450975700, [0x590d]);
  (591643515265408800, [0x7d737edb]);
  (610635305633997800, [0x4ed4]);
  (784095411172808450, [0x6d0b]);
  (857184162027087700, [0x958f95f0])
].
(** prob_emit.go:80862-80865 probEmit, state 405 *)
Definition emit_405 : list (Z * list Z) := [
  (15415067982725836, [0x8d178d5d]);
  (194591014905531350, [0x6a59])
].
(** prob_emit.go:80866-80889 probEmit, state 406 *)
Definition emit_406 : list (Z * list Z) := [
  (74874709595525160, [0x548c]);
  (199937577044770020, [0x800c]);
  (225078419694270960, [0x4f46]);
  (246594929379215600, [0x4e265e76]);
  (249305781150831060, [0x6216]);
  (287713430977760700, [0x53ca]);
  (423258164765457150, [0x82e5]);
  (429271920112568900, [0x4e14]);
  (448544234951602500, [0x65e2]);
  (461150928847451350, [0x867d96d6]);
  (462859145221131300, [0x6545]);
  (646400013158742600, [0x590d]);
  (696011298432860400, [0x5018]);
  (749762028150982300, [0x66a8]);
  (878675089417606600, [0x60df]);
  (1057851036340412000, [0x50a5513b]);
  (1152297197224497300, [0x82df]);
  (1185944420886618500, [0x71367e317eb5])
].
(** prob_emit.go:80890-81051 probEmit, state 407 *)
Definition emit_407 : list (Z * list Z) := [
  (217074046899341900, [0x4e0d]);
  (221440726122004900, [0x4e5f]);
  (235157204790077930, [0x5c31]);
  (268812812914025000, [0x90fd]);
  (285149305294943960, [0x8fd89084]);
  (286148095690346470, [0x5c065c07]);
  (298661788289902970, [0x53c8]);
  (346253534325381730, [0x53ea]);
  (372437789243155400, [0x5df2]);
  (380863721183927330, [0x5f88]);
  (390349374414526200, [0x6700]);
  (393540878595594770, [0x518d]);
  (393604204351143540, [0x66f4]);
  (397096678594250000, [0x8f038f83]);
  (399590392720507700, [0x624d]);
  (406894017858047100, [0x5374537b]);
  (413209405849567000, [0x6c926ca1]);
  (418906909705553500, [0x6b63]);
  (426521018222762100, [0x52195247]);
  (427171413963364900, [0x4fbf]);
  (430313676334440750, [0x7d047ea6]);
  (449252424927111000, [0x4ecd]);
  (456592923369816600, [0x66fe]);
  (463902726638318900, [0x5747]);
  (470955831190390100, [0x592a]);
  (480749925817821660, [0x5148]);
  (491524099167872650, [0x672a]);
  (496144347573572100, [0x5171]);
  (498237390639315300, [0x76f8]);
  (503315818734987700, [0x4ec550c5]);
  (516548278731005350, [0x8fb9908a]);
  (520781555458219200, [0x8d8a]);
  (523256466014048800, [0x771f]);
  (526716351632678400, [0x76f4]);
  (539128814332103500, [0x5e38]);
  (543659843639858600, [0x4ea6]);
  (550250651987796200, [0x5225522b]);
  (558183693589540500, [0x67816975]);
  (570632348883713300, [0x521a525b]);
  (580095753609372500, [0x7686]);
  (583942017234765400, [0x535555ae]);
  (589563594524693800, [0x5fc5]);
  (594098903152366900, [0x4e714e82]);
  (607070961820110600, [0x5c1a]);
  (607607941387198700, [0x7adf]);
  (609585267302379100, [0x7279]);
  (622859983575748200, [0x6b32]);
  (623661361648103500, [0x9042]);
  (628337996787280900, [0x9808987b]);
  (629732804118020300, [0x7565]);
  (631457515795074700, [0x5ffd]);
  (633592604749228000, [0x975e]);
  (637938295009049400, [0x98179887]);
  (639205823653627300, [0x504f]);
  (645652962330437850, [0x7a0d]);
  (663392242266537600, [0x51e1]);
  (666651274992648200, [0x4e135c08]);
  (667538592260696800, [0x7d557edd]);
  (667627758561744900, [0x590d]);
  (673838077544536600, [0x6e106f38]);
  (687062477418675800, [0x5c828c48]);
  (687496788633392250, [0x660e]);
  (689752730246599550, [0x4f3c]);
  (690422749503581600, [0x83ab]);
  (695891738133243600, [0x731b]);
  (697442156786840200, [0x5c24]);
  (702495604092195600, [0x865a865b]);
  (705251305541067500, [0x786e78ba]);
  (705316303918396600, [0x6050]);
  (706427789699026200, [0x51b36c7a]);
  (708151970342476800, [0x98109884]);
  (714005620587734100, [0x633a]);
  (716519217914888350, [0x7d427ec8]);
  (720072515491734800, [0x6108]);
  (724857378808793500, [0x668266ab]);
  (726772840404494800, [0x5fae]);
  (730717476715163900, [0x7d277dca]);
  (736319975719155100, [0x9f4a9f50]);
  (743580858085325800, [0x65cb]);
  (745214724320804700, [0x6c38]);
  (745408710802587400, [0x4e92]);
  (750486954671904450, [0x5c615c62]);
  (752864327619815400, [0x7a81]);
  (754552131398550600, [0x5f92]);
  (767844498857248500, [0x72c2]);
  (771305907459522300, [0x72ec7368]);
  (780522953439488000, [0x86ee883b]);
  (783320338643728700, [0x72b97336]);
  (784175044701574500, [0x6070]);
  (784318208648718200, [0x52a152d9]);
  (785181523363188600, [0x60df]);
  (788861114333393100, [0x52ff]);
  (793463153367739200, [0x552f]);
  (794409532670834200, [0x72e0]);
  (810354262908777100, [0x8b398c28]);
  (837037783990002800, [0x5076]);
  (854785677221819500, [0x8fed]);
  (865482889177036300, [0x5984]);
  (869095761585886900, [0x6982]);
  (874595429160631700, [0x5fd2]);
  (883071955823402800, [0x5f255f4c]);
  (888606965331719100, [0x9a5f9aa4]);
  (889014297870482800, [0x752d]);
  (889833974590900700, [0x9177]);
  (890246346309286800, [0x826f]);
  (892756938422394500, [0x6b8a]);
  (894036273568385400, [0x4e4d]);
  (904429365853208700, [0x53866b77]);
  (904906693728474400, [0x752b]);
  (910313415855502000, [0x7a76]);
  (924390671243610200, [0x80e1]);
  (958738014451629900, [0x6beb]);
  (976642837596528300, [0x4e9f]);
  (996058439040624100, [0x82df]);
  (1021701391935391700, [0x6bcb]);
  (1067782912254524800, [0x5b9b]);
  (1095741398476441000, [0x6b86]);
  (1190649453946155500, [0x5b815be7]);
  (1244549104019424100, [0x8a4e8bb5]);
  (1278196327681545500, [0x52c7]);
  (1369825400868961000, [0x4e1a696d])
].
(** prob_emit.go:81052-81052 probEmit, state 408 *)
Definition emit_408 : list (Z * list Z) := [].
(** prob_emit.go:81053-81076 probEmit, state 409 *)
Definition emit_409 : list (Z * list Z) := [
  (46421524532436750, [0x751a]);
  (167871483448396150, [0x4ff1]);
  (243488653135026300, [0x5f17]);
  (361543439216016170, [0x590d]);
  (438534558893194500, [0x5a49]);
  (442883070087168400, [0x5584]);
  (485110292729623000, [0x8f128f84]);
  (492130718596947900, [0x500f532a]);
  (552744298953979400, [0x76ca]);
  (556134454121547500, [0x7d20]);
  (570976454633374900, [0x5e78]);
  (593290809764795850, [0x75be]);
  (615605164896216800, [0x731d]);
  (628958304158669100, [0x534f5354]);
  (636369101374041300, [0x52a152d9]);
  (644373372141394900, [0x59d1]);
  (653074509840357900, [0x715e]);
  (731920245876784900, [0x5352]);
  (823549319064200300, [0x52c9])
].
(** prob_emit.go:81077-81109 probEmit, state 410 *)
Definition emit_410 : list (Z * list Z) := [
  (159730429542267420, [0x54e6]);
  (166102955557825800, [0x5509]);
  (178293354200880330, [0x55ef]);
  (204529780647629430, [0x54ce]);
  (310967152161528260, [0x55e8]);
  (317355878906653400, [0x54a6]);
  (347522710349305500, [0x5478]);
  (349898118950116200, [0x55f3566f]);
  (350864310041289860, [0x558f]);
  (353820190265444300, [0x55ec]);
  (363802223793665420, [0x563f]);
  (412698906789014600, [0x5466]);
  (438217197294897250, [0x55c4]);
  (479346800136793000, [0x5662]);
  (496531825829458900, [0x563b]);
  (500787787271338500, [0x566b]);
  (517295762307283400, [0x8a928bf6]);
  (522560135655825500, [0x5594]);
  (525300033074637000, [0x56af]);
  (584078699564848900, [0x540154547c72]);
  (627156991174094300, [0x65bc]);
  (704475979997442450, [0x54b3]);
  (745022490808258900, [0x561856537317]);
  (814337208864253400, [0x556756166b39])
].
(** prob_emit.go:81110-81110 probEmit, state 411 *)
Definition emit_411 : list (Z * list Z) := [].
(** prob_emit.go:81111-81135 probEmit, state 412 *)
Definition emit_412 : list (Z * list Z) := [
  (147945374376630220, [0x4e0a]);
  (154204470598230480, [0x4e2d]);
  (207056458489238100, [0x540e5f8c]);
  (234536859097567300, [0x4e0b]);
  (267739197593248960, [0x88e191cc]);
  (270325208049383960, [0x524d]);
  (305361781636626700, [0x51675185]);
  (350092845955470060, [0x5916]);
  (397115306522891500, [0x959395f4]);
  (400715350972016600, [0x5357]);
  (418665809599606900, [0x897f]);
  (425339221727106500, [0x4e1c6771]);
  (426869732831296500, [0x5317]);
  (436045312442854200, [0x521d]);
  (476116440355016600, [0x5e95]);
  (485484988762748900, [0x672b]);
  (519759173726229700, [0x5de6]);
  (531832724037194800, [0x53f3]);
  (571921973191333950, [0x65c1])
].
(** prob_emit.go:81136-82750 probEmit, state 413 *)
Definition emit_413 : list (Z * list Z) := [
  (355424855615599670, [0x6715]);
  (436782650529476700, [0x5ef7]);
  (456633035267182750, [0x5d4b]);
  (470061788899967400, [0x5f655f66]);
  (475342518821844000, [0x8587]);
  (485754599770492000, [0x80e4]);
  (501022283791387800, [0x6853]);
  (502058562494942300, [0x61ff]);
  (509629744668512000, [0x9c329ccc]);
  (511443853375577000, [0x916e]);
  (516128550705255900, [0x920094af]);
  (516609320862066200, [0x50ed]);
  (518555854340876500, [0x6c74]);
  (518801856924962750, [0x6c10]);
  (520290718174337800, [0x690169e8]);
  (521043544816417000, [0x6dd6]);
  (527279330920754500, [0x737e]);
  (530272751702558900, [0x8ade8c1d]);
  (535956099178875500, [0x8482]);
  (540135812046721700, [0x7b95821c]);
  (541054654652162300, [0x88848956]);
  (541982018330695200, [0x90ba9134]);
  (543232034607118400, [0x5925]);
  (543862951526444900, [0x86f99427950f]);
  (547078662689897900, [0x6d60]);
  (550739637251154100, [0x9ad3]);
  (551079196151267900, [0x5cc1]);
  (551419911983429300, [0x69b7]);
  (552449080587084000, [0x87a887ce]);
  (553837991803150800, [0x6f41988d]);
  (556315994702999500, [0x99489990]);
  (557760063118478900, [0x82b0]);
  (559225290797166000, [0x9954]);
  (559594976985298600, [0x9bab9c9b]);
  (559966034924952100, [0x6d9e6df6]);
  (563369009783583200, [0x932e9522]);
  (563754366715182300, [0x77f678ef8f268f87]);
  (564141214392974300, [0x8fe6]);
  (565703746183282400, [0x8b148c11]);
  (567691883238665300, [0x7dc77f01]);
  (568498339222338340, [0x6041]);
  (569311351830663350, [0x5b5b76009c289cce]);
  (572210105517988600, [0x5bb8]);
  (576942171136995800, [0x9ae6]);
  (577827132664694000, [0x96bc]);
  (578272567699632050, [0x5e8b867b]);
  (579620902733360750, [0x5d69]);
  (581447437531090100, [0x9f10]);
  (581909332116719600, [0x64e28b288c1f]);
  (583778545417934800, [0x7ae6]);
  (584251359537529400, [0x5cea]);
  (585203747688654900, [0x8a168bab]);
  (586649556006178000, [0x8451]);
  (587136174971295200, [0x8d4d98e79f4e]);
  (588610403145015600, [0x86ed]);
  (589106682079228400, [0x7e82]);
  (589605436230332400, [0x98ed996c]);
  (594734765669087400, [0x80ea81da]);
  (597401590377303600, [0x7940]);
  (599036504177456500, [0x52be71b5]);
  (600698592301060500, [0x6687]);
  (602958575492784600, [0x6dde818a]);
  (604687725203790700, [0x6de56e0c9efc]);
  (605857329180109900, [0x6f5e]);
  (607040774944810100, [0x5326532d]);
  (608238394049481700, [0x9b51]);
  (608842625495078000, [0x5bee]);
  (610062152804459800, [0x70788151]);
  (610677539361897600, [0x69ed740f7489]);
  (611296736386689800, [0x59ab5aaf]);
  (611919791361753300, [0x6d39]);
  (612546752663112900, [0x9afb]);
  (615094661193211400, [0x6fc9701b]);
  (615741912643773100, [0x5ca36d91]);
  (619042542290590200, [0x51565157538d5399]);
  (620393914207262400, [0x8edb8f6d]);
  (621076510714302400, [0x5ad45b2a5ca27b08]);
  (621763798643078600, [0x57fd5cab]);
  (622455842927536000, [0x4e1569db6abb7df97f07993c9969]);
  (623854467125010000, [0x5d025d97]);
  (625272930624205600, [0x75a3]);
  (625989779572066850, [0x605a7de67f0c]);
  (626711804369415600, [0x7252]);
  (627439080302323600, [0x603c61df7f218935]);
  (628171684311530850, [0x784e]);
  (629653192890044900, [0x614a6d948a489c789c88]);
  (630402260062960600, [0x8b168c21]);
  (631156980626498900, [0x6426]);
  (632683727839577800, [0x51917a3780c481c1884591c1]);
  (633455932448968800, [0x5363]);
  (634234146493174300, [0x67536ddd]);
  (635018464239276900, [0x748b86b493a994e9994c99809994]);
  (635808982189988200, [0x50486d7c8a368bc3]);
  (636605799154905900, [0x7e1e7f1f]);
  (637409016324632400, [0x6fe0757f]);
  (638218737347894300, [0x536e5cb76d0c6fb676c28a618be9]);
  (639035068411810400, [0x786a]);
  (639858118325461960, [0x9c5f9c8e]);
  (640687998606931400, [0x714c]);
  (641524823573983100, [0x92c8]);
  (643219779405360500, [0x66156dc772308b07973e]);
  (644078153774499550, [0x736d737a]);
  (644943960048811100, [0x4f6550c95dfd69ad86e99ae1]);
  (645817328045686500, [0x5997853c85f991239a6a9a8a]);
  (646698391013902000, [0x8b8e96e09ac19b749c82]);
  (647587285755626600, [0x7039923994cd]);
  (648484152753902600, [0x68096adb924d94cb]);
  (650302384662221660, [0x6e5f8adb8c00]);
  (651224050172714100, [0x7481789b78e7]);
  (652154289438945400, [0x5f3c757475877d137ebe]);
  (653093263473929300, [0x58c57c95942895449b839c86]);
  (654041137869383700, [0x6a479419956b]);
  (654998082970998750, [0x5e808a7f8b9c8bd68c209162]);
  (655964274062172500, [0x768b8afc8c169104]);
  (656939891556708900, [0x57ad57e1751985dc8a9a8bee91af9f099f0d]);
  (657925121201010100, [0x5b1693b59553]);
  (658920154286326900, [0x758390d391069f549f80]);
  (659925187871677000, [0x580b65c37e0a7f22922794aa]);
  (660940425018078900, [0x63be643f6e1a7b2e7e097f19]);
  (661966075034797800, [0x7e887f2c9a2b9a9e]);
  (663002353738352400, [0x66dc73f2743f]);
  (664049483725081900, [0x6434741b78508e14]);
  (665107694658135600, [0x7c91826e89ef89f68cb28d40]);
  (666177223569810500, [0x6c5c753e80cd]);
  (667258315180232000, [0x50a9513a607a6137693f9792]);
  (668351222233451000, [0x5b95841897ab]);
  (669456205852109500, [0x6bd3887e9f609f86]);
  (670573535911922000, [0x57099995]);
  (671703491437315400, [0x5476724d72587b2580b48a848bd491ae92ab94ef991a]);
  (672846361019677700, [0x5c597f548fe890e2]);
  (674002443259785300, [0x5793723b]);
  (675172047236104400, [0x6b7f6b8192ae947e]);
  (676355493000804700, [0x65c6809f]);
  (677553112105476300, [0x5d82]);
  (678765248158710750, [0x4fac510252ac763f766d7fca909b9545]);
  (679992257417892200, [0x51fc54d556666c3982e186a486ac8706]);
  (681234509417747900, [0x5d746387836985ce8cfe8d5c]);
  (682492387638433900, [0x53a353b45d4a68c26afa7afd7b2b]);
  (683766290216176800, [0x5d24678b84b493549537]);
  (685056630699767700, [0x5fb560b46c2a81188f058f82]);
  (686363838856502900, [0x521669ca748778b27e117f2392a094d1]);
  (687688361531505000, [0x5ee8841c8aee8c1890b39f669f88]);
  (689030663564719100, [0x697871139ab1]);
  (690391228770296900, [0x6de080c285ae85ea]);
  (691770560983530500, [0x500c5ab85ce65dd25f586c7686d88db18db2]);
  (693169185181004450, [0x53df923f94bf95ab95bf9603960c]);
  (694587648680200150, [0x57d4665f7d097eab8a528bd2]);
  (696026522425410100, [0x795a866e87e392a394f7951d]);
  (697486402367525400, [0x6c216e6b7c1f8b178c2495d09617]);
  (698967910946039400, [0x5ba56e8f857286048e7491d7938f948a95c895f1]);
  (700471698682493500, [0x5106594159695ee95eea6f627618763a775177bc89309312951595c39612]);
  (701998445895572300, [0x5c3b5ea06c1875bd7aac7df67f0f98eb996b]);
  (703548864549168850, [0x560c577360af61ab7c267cc17cdd7f9d88219301951e]);
  (705123700245982700, [0x52d068f96b596da06dab6f7f74ff7e527f2f8acf8bf9]);
  (706723734380626900, [0x55cc5f01601b680a6af36e868b108c278df88e55960b9b299b929c8b]);
  (708349786467804950, [0x686469bf71317b0f]);
  (710002716662926000, [0x617569846a176b16704f705d868b94639573958e95f39bdb9cb79d1f9e31]);
  (713392871830494100, [0x61cd61d47b0488448de391d492e89487950795e595fc]);
  (715132046101681100, [0x61b767d87e3b823b826b88c9]);
  (716902003811621100, [0x557b8ed48f6b900b924894ca97659768]);
  (718703854361889000, [0x5a235b34674c80d983b8855587ad90119518]);
  (720538768228708600, [0x6c1a758b7839795783f0887290e79116]);
  (722407981529923850, [0x5293608c70b37352740a742a7b157b67886e889e]);
  (724312801026993300, [0x5b9963c6665466c46ece7829796f798e7e9b7fb283658ab68c07]);
  (726254609612703500, [0x4f5755be56b35d035d0d6106630865c46b467826873190fe912f92df95139780987098a69f17]);
  (728234872342321450, [0x50d658445cc45da75ea5788781328c559be29cb5]);
  (730255143074073400, [0x4ed152f05d19623e631e64bb66346963795c8e359c299cd09ee5]);
  (732317071794346900, [0x594259506c94831a8c989201929394ab94e8]);
  (734422412714130200, [0x695770ac79e37b337dd77f037f747f868249887f943e96b0]);
  (736573033236226600, [0x59d25db760eb618a66776c056f88785678647c9d7cf280b78b9e8c339044921194a3]);
  (738770923908104000, [0x55ea59245ce45d6c5da0663166f768676a9c96b398ea996a9aed9bc09ca7]);
  (741018209493309900, [0x5b325cb55e3b5e586e537a237a4c89b289d09c6d9c9a]);
  (743317161315779800, [0x53fb610d77257726795f7aad7ab67b3e7c697d837ee17ff38291846d867f8806911e]);
  (745670211056799200, [0x53b65aaa5abc5e1167106ea76fc27035742e74e080e8812f8156877d903596b99753975a]);
  (748079966214705300, [0x5a676a3e7a707b477e1f7f1b90ef927f94ea]);
  (750549227473742400, [0x4f945c9c609a62ca7811781c824f88b18ad78c02990d995c]);
  (753081008272171400, [0x559f5d5d5d8161cb6bd67b6e7e627f0b80bc8343918c964996589dda9e1b9e689e73]);
  (755678556912497400, [0x5ae05cd25d2e6d6f6eb272567ab37ba77bcb8ad18bfc8dba91ba950d9e719e7a9e7e]);
  (758345381620713600, [0x5e5e6cfa6ffc78937c407d067d887ea17ee890be90c5914391f994959b909c089c5d9c909cbc9cbd]);
  (761085279039525000, [0x4fe6510b511465d26ecf70b17228755b80e9854888328e768fe990879099928e9ac0]);
  (763902366736194700, [0x5d065e44656b660088fc]);
  (766801120423519900, [0x5819600660786134615f66db839285a886ce88238cda8d49933894fc9a059a939af9]);
  (769786416738488000, [0x50e652d652d771ee7d867ee082ca85c19d1d9e329f4f9f51]);
  (772863582605163400, [0x610e67d969876aec6d486e5e7d3a7ec082b4]);
  (776038452436621400, [0x541255e5560f6d526ef8759a780078ad78d47d407ecc80ab836a84bd84c0914e9245949c9d879e2b]);
  (779317434718920500, [0x572e670a6d4d6fae77bd789a7f7e801c848e87ca92e692ee94d695149bd69cad]);
  (782707589886488600, [0x4e1057a160d56126612b61926f7c75ff7f5f8028825a89668c73902191ad965f9bd49c589c9f9cbb]);
  (786216721867615700, [0x595880d784018fd3944a953f954e956c]);
  (789853486284703200, [0x55fe57ed5c5065f06ca96e546e886e9f7080716c75137f6888f08dd68e608eeb8f78]);
  (793627519082987800, [0x59dd5b65604269c16aab70c1720d733779627d3f7ed08c8a9315951f96ce97069b08]);
  (797549590398316000, [0x5af15b195d5b708576cd7c9e809c81678411862990b699979b2f9dbc9e63]);
  (801631789850341500, [0x55335ad85aeb5d1e6657677c79a77d3c7df17ecb7f11887d8d679016931f952c9e87]);
  (805887751292221000, [0x4f914fea513762f668626874696869e06ae76d046ed375a1760d7a867ca28027802c83d8899889c78a108ba6966c9efb]);
  (810332927549304400, [0x54bb573b5c985cf465496684732c7331746d7ba87c5c823883518a418bc2915091b5950e98ae98d19b9e9bdd9c959cb4]);
  (814984929112793700, [0x5cbd5f5664d866be67e26b9b6e116f2a6fa074307bfc83f989bf89cc91e49490]);
  (819863945529737000, [0x52ad556d56c0572f5fbc669d67a56aea6e2b7540797a822b8b4e8c32909790db968d9a369a7a9cd3]);
  (824993274968492000, [0x54ff57da581d5e146019646d6aa0729677b07bc17f5883668b568c2e8d048d3d8dbc91a29a169a9b9b1f]);
  (830399997095519600, [0x57d2581e6b846cf77027754b7e797ece8112934694949a0f9a90]);
  (836115838479514500, [0x54d956725c7a5ed263c466616670734d73d9766f7cc78db59164923a929a94b094eb967299319e88]);
  (842178300661157800, [0x507e50e857dd582066e96f8d70ec71fc733e74f48dec94869ee0]);
  (848632152774915000, [0x502c515551bd5786588058da59aa5ad75def5df061d161e3648465166636676a68556d276d436d79754e76157a037d32; 0x7ec1819181cf822184cd88a488ce97de97eb985998a19a2e9a9d9d6f9e4e]);
  (855531439923610100, [0x52a252f15581574c600d602b6cd68a0c8ba78f1e8f8b926694b29a2d9a989c679ce29da59e5b]);
  (862942237138982400, [0x57d5633964106d35745b769977077750775e7a02839384b9872e88d28fd590d0913694b796e99bc79ca9]);
  (870946507906336000, [0x5c6373c8790580438159872989dc8a588bce9139]);
  (879647645605299000, [0x502e55c457a457a9580a5adc5f82603f61cc6603684a69b171d473e573e9772279ba7d317e8a7ea97ec28ef98efa8f75; 0x8f7a952b9631986598a29a449aa29aeb]);
  (889178663585731500, [0x4fa95108520e5233523f528c54dc556c55c7568c5c995db45edb63f264d0679867b567dd6d196ee0701a704473917428; 0x74a37735782c7b717fbc851f895e89a189cb9654]);
  (899714715151514200, [0x5028576d58895a085b4c68776a656aeb6bf36eb7742c75a07658765c7fee8029811481e090a1927a934794d294f99534; 0x9edf]);
  (911493018717152400, [0x522d5244577c5c665c68634367a767f068986c506ceb716274a8750d75b47617761e76a4777d7b58831583b0849785a4; 0x8d108d4691859688]);
  (924846157979604700, [0x593c59b25ffe608360ad613e61736229622c6cd06f89745777807b727b7b7c0f7cd77e987f3580698075811e81a68223; 0x826487978e90931995319564956595689baa9bd79c949c9e9cd8]);
  (940261225962330500, [0x4f765107577b5a205c8d5ed15fed6b826c1575d67602763c7953798a7b4c7b607b907bda7fe58204847a84d08cba8d36; 0x924993d1943f94c994e5955d9571980a9853987c989b99989f44]);
  (958493381641726000, [0x4f7b4f7e5c885d9d619d63696910691f6add6ee270057bea7d777e3683078311839b852689198dfd8e408e9c8ea68f12; 0x8f84917294fd99d49a759cba9ec99ecc9ef9]);
  (980807736773147000, [0x5454552a576b57b4584d589a59a35ab55eb3638a67c1688f68fc6abe6baa6f8c7643796779ed7ba67c008031810e82d8; 0x8ce78d558e948efe8f7c9058915e919192cf93dd93de9413947994d79558955b95669569963c963d9aa39b0f9b9a9c92; 0x9fa0]);
  (1009575944018325000, [0x4faa5115572c578c5fee609b609d615d6224638e6445650467a868d6692069e76d0e6d2b6eb1775a778d77a27b5a7bf3; 0x7cc88b7e8c2b]);
  (1050122454829141500, [0x537a551b5555561c570a57cf5bde600a60676322649f6cde6fd87303736b73e775cd763578b97c167e6f7f33800b8174; 0x81cc835b83a085588c788e238e418e6f8f628f79917496749708]);
  (1119437172885136000, [0x57ef57f457f858655f2a5f33624364966a916bea6c5471f9726e72c372ef736a73cf74de7619771978a57bd17c2381a3; 0x8274834f847884878488854689d68cb08d339a419a9c9beb9cb0])
].
(** prob_emit.go:82751-82752 probEmit, state 414 *)
Definition emit_414 : list (Z * list Z) := [
  (0, [0x975e])
].
(** prob_emit.go:82753-82753 probEmit, state 415 *)
Definition emit_415 : list (Z * list Z) := [].
(** prob_emit.go:82754-82754 probEmit, state 416 *)
Definition emit_416 : list (Z * list Z) := [].
(** prob_emit.go:82755-83029 probEmit, state 417 *)
Definition emit_417 : list (Z * list Z) := [
  (255347861632310470, [0x6cd5]);
  (275944690275938380, [0x65e5]);
  (285419708771825760, [0x7f8e]);
  (326274605546411720, [0x6caa6eec]);
  (357666624399406930, [0x5fb7]);
  (358332249409834260, [0x6c496f22]);
  (375544287196715600, [0x82f1]);
  (382075942161981660, [0x534e83ef]);
  (384394010179112570, [0x4eac]);
  (387684888827086000, [0x4e9a4e9e]);
  (397010638175744250, [0x85cf]);
  (410025590948515800, [0x6e2f]);
  (410653380884161750, [0x59655967]);
  (412493205317293500, [0x5609]);
  (419484171403144100, [0x6ce2]);
  (421606461083782400, [0x963f]);
  (423510569386293900, [0x4fc4]);
  (425106347930155000, [0x57238056]);
  (427588057302122150, [0x8fbd907c]);
  (430982274125628000, [0x5df4]);
  (435893789730377500, [0x97d397e9]);
  (443837640756408800, [0x7f577f85]);
  (447602791376777600, [0x5854]);
  (453734222180433200, [0x59d4]);
  (454091821539795100, [0x6b276b50]);
  (454399356379819800, [0x8944]);
  (463081828656423400, [0x5ddd]);
  (466036589066019150, [0x82cf8607]);
  (473642768226316600, [0x5e1d]);
  (474329626999092500, [0x54c8]);
  (477254183808738650, [0x6e58]);
  (479538133005720900, [0x8700]);
  (483923321258605800, [0x6649664b]);
  (486154934090860550, [0x6cf0]);
  (488581891182306400, [0x5c3c]);
  (489891000786994300, [0x5b815be7]);
  (491143319179292300, [0x6469]);
  (491217475652842600, [0x76d176e3]);
  (496315574610394400, [0x683c]);
  (497414486767954000, [0x745e]);
  (497889171203575900, [0x4e7e]);
  (499085834865328000, [0x676d]);
  (499246477470155400, [0x6dee]);
  (499891640998304250, [0x56fa]);
  (502017640940989200, [0x5409]);
  (503600347864537850, [0x4f0a]);
  (509123753396090200, [0x4e4c70cf]);
  (509568396191803700, [0x53f68449]);
  (513661737084429000, [0x6fb3]);
  (517542962518125000, [0x5bdf]);
  (521580931084208550, [0x5e9c]);
  (522388200856719600, [0x6d4e6fdf]);
  (529309201174537150, [0x5170862d]);
  (535120892273528600, [0x8c6b]);
  (535582254106879900, [0x6d59]);
  (535929677733698550, [0x7ca47cb5]);
  (538753394751859550, [0x5510]);
  (539833189286538300, [0x695a]);
  (544399065618625200, [0x6ec7]);
  (547606524663342200, [0x6d1b]);
  (553514282584191350, [0x5580]);
  (554907062758638200, [0x5ce15cfd]);
  (558621775577832900, [0x6d25]);
  (560532193708837100, [0x95a995fd]);
  (560978291102899600, [0x8036]);
  (564466135164840400, [0x5b5f]);
  (564775254421807650, [0x7267]);
  (566492704910798700, [0x4f2a507d]);
  (567442079130023800, [0x5ef6]);
  (568883256996154100, [0x5eb7]);
  (570673378029078100, [0x5e0c]);
  (571995711346547100, [0x7696]);
  (578349779650261900, [0x6377]);
  (579419308561936750, [0x9ed4]);
  (581960280114473600, [0x5858]);
  (588414132228230700, [0x8d1b8d63]);
  (588807060042219600, [0x83f2]);
  (594476594409874200, [0x8c9d8d1d]);
  (599605923848629300, [0x9655965d]);
  (600486986816844800, [0x7dad7ef4]);
  (601375881558569300, [0x8f4e8f7f]);
  (601599345338711000, [0x57c3]);
  (612209995938165700, [0x96b696b8]);
  (612708750089269700, [0x6606]);
  (615754670837740500, [0x5f5d]);
  (616012735497089600, [0x6e146f01]);
  (616271467853584700, [0x6842]);
  (621865469441818700, [0x7d107ebd]);
  (622139818036393800, [0x73bb]);
  (623244801655052250, [0x6e1d]);
  (623801906159997800, [0x6714]);
  (624362131714864800, [0x5766]);
  (625492087240258150, [0x4e39]);
  (627500763096931900, [0x74647476]);
  (631341707908419000, [0x964796b4]);
  (631945939354015300, [0x9102]);
  (632859187710342500, [0x6b66]);
  (638197975052148600, [0x848b8523]);
  (639824027139326650, [0x6cbd]);
  (642481990919797850, [0x59875a6665af]);
  (644522878082918550, [0x743c74ca]);
  (644867112502015900, [0x536276e7]);
  (645559156786473200, [0x6b3d94a6]);
  (646957780983947200, [0x5b556c88]);
  (647664497706256450, [0x53a65ec8]);
  (648019737866693300, [0x93269526]);
  (652013008900230300, [0x5384]);
  (656172398630114100, [0x9ece]);
  (657728850284225250, [0x7f8c]);
  (660512330183569600, [0x660c]);
  (661322051206831600, [0x667a]);
  (662138382270747600, [0x53c253c3]);
  (665896653385651900, [0x5180]);
  (666323093264297700, [0x756c7572]);
  (668483004444643800, [0x4f97]);
  (670245164579625800, [0x73e0]);
  (671138027654055950, [0x5308]);
  (672492450164831700, [0x8346834a]);
  (672948031818417700, [0x6590842885a9]);
  (674327364031651300, [0x6f33]);
  (676669391452461200, [0x5112]);
  (678583325473530950, [0x8461]);
  (679067587921109700, [0x7518]);
  (685586185909579300, [0x6069]);
  (686627861995404800, [0x5fbd7d8f7ee5]);
  (688211008517072900, [0x79d8]);
  (691454536092388300, [0x7d22]);
  (695949674878614900, [0x82ac]);
  (696526045350290000, [0x6c82]);
  (698865333307760500, [0x7586]);
  (699458806859741960, [0x6cd7]);
  (704964784578044700, [0x6d66]);
  (708159944558705000, [0x7bee7c43]);
  (708811412660824300, [0x627f67ec]);
  (714181830558010400, [0x970d]);
  (716272499039941750, [0x79e6]);
  (719129836284347400, [0x65e6]);
  (724335472479952700, [0x7d0d7eb3]);
  (726652178408106100, [0x84c9]);
  (728227014104920000, [0x535a]);
  (730636769262826100, [0x4f01]);
  (733106030521863250, [0x7bc6]);
  (733942855488914900, [0x50a3]);
  (737361991963742800, [0x77f3]);
  (748382305977104250, [0x572d]);
  (750343153115941900, [0x5b8f]);
  (752343219786608850, [0x7a46]);
  (754384106949729550, [0x83cf8d0a8d5e]);
  (755420385653284200, [0x6d546f6f]);
  (765264392934609500, [0x5bfc5c0e]);
  (766420475174717100, [0x6ee6706474ef750c]);
  (777474662614699400, [0x4e526280]);
  (780106393446436800, [0x8377]);
  (782809260685228700, [0x5baa61b2]);
  (785587217095936300, [0x610f6566]);
  (788444554340341950, [0x5371]);
  (789904434282457200, [0x96cd]);
  (791385942860971300, [0x5a045a416c55]);
  (792889730597425300, [0x6c859756]);
  (797541732160914600, [0x7fbd]);
  (800767818382736800, [0x6cad6fa7]);
  (804101460409496000, [0x86a9]);
  (812956800143640400, [0x752c]);
  (814826013444855600, [0x9095]);
  (828991065151158300, [0x4f64]);
  (838088242971731000, [0x5e7f5ee3]);
  (845499040187103300, [0x7126]);
  (853503310954457000, [0x90f4]);
  (862204448653419900, [0x4fa850d16995]);
  (865281614520095100, [0x839e]);
  (868456484351553300, [0x9b6f9c81]);
  (889967622313247700, [0x984f989c]);
  (902750959464236200, [0x6f84]);
  (912281977444668800, [0x54e56d2a6f13]);
  (934596332576089700, [0x6e5b]);
  (947949471838542000, [0x6f8e97f6]);
  (972065677520230800, [0x51c96dbc]);
  (981596695500663300, [0x6977]);
  (992132747066445800, [0x90d1912d963396469678967d]);
  (1003911050632084200, [0x632a7a57]);
  (1017264189894536500, [0x6f47701f7dec7f05]);
  (1050911413556657900, [0x6885]);
  (1073225768688078800, [0x7533]);
  (1101993975933257000, [0x51a0679d6d89]);
  (1211855204800067800, [0x4e1157fa8cbf8d38919c])
].
(** prob_emit.go:83030-83030 probEmit, state 418 *)
Definition emit_418 : list (Z * list Z) := [].
(** prob_emit.go:83031-83041 probEmit, state 419 *)
Definition emit_419 : list (Z * list Z) := [
  (95692798464153820, [0x4eec5011]);
  (140313183141077860, [0x578b]);
  (143434803524467800, [0x8005]);
  (208345743975868250, [0x5f0f]);
  (549429013340451000, [0x754c]);
  (629695583977094500, [0x4eea5100]);
  (715044567040607000, [0x708e]);
  (742373900540575100, [0x5668])
].
(** prob_emit.go:83042-83042 probEmit, state 420 *)
Definition emit_420 : list (Z * list Z) := [].
(** prob_emit.go:83043-83043 probEmit, state 421 *)
Definition emit_421 : list (Z * list Z) := [].
(** prob_emit.go:83044-83399 probEmit, state 422 *)
Definition emit_422 : list (Z * list Z) := [
  (174874302658614600, [0x5e74]);
  (201917962755703640, [0x4e00]);
  (220469507333088230, [0x6708]);
  (245090636206158360, [0x591a]);
  (257011459726442040, [0x65e5]);
  (341050584673529040, [0x4e2a500b]);
  (341306527730219460, [0x4e09]);
  (356693772191537440, [0x4e245169]);
  (369278041276967840, [0x5143]);
  (382082391981775830, [0x4e8c]);
  (390000107496678530, [0x4e07842c]);
  (404469745145491500, [0x70b99ede]);
  (429113115615154900, [0x5bb6]);
  (439604537528463600, [0x7c73]);
  (441765309659203900, [0x56db]);
  (453378073295236000, [0x53ea]);
  (481524976181240700, [0x4ebf5104]);
  (482094688119386800, [0x65706578]);
  (487457335247684300, [0x500d]);
  (490121444618315900, [0x534a]);
  (490293561700393200, [0x4e94]);
  (506631624409918850, [0x5c816b72]);
  (515980253039962400, [0x79cd7a2e]);
  (517145140764338400, [0x4f599918]);
  (527761340608719000, [0x53cc96d9]);
  (533989939217146800, [0x9996]);
  (534283703615881040, [0x5341]);
  (537104612116830400, [0x516d]);
  (538127709662544500, [0x540d]);
  (538183311554441300, [0x516b]);
  (543905696370468600, [0x53f7865f]);
  (544200594844284300, [0x5929]);
  (555408320211420500, [0x7b2c]);
  (560629845215663500, [0x4e03]);
  (564606229920576900, [0x51e05e7e]);
  (569201332478263700, [0x6b21]);
  (570115624561531100, [0x4e5d]);
  (570230501081918500, [0x938a9551]);
  (571774933324665800, [0x80a1]);
  (576352847090730300, [0x54285678]);
  (588923487069933400, [0x5206]);
  (599536550576372400, [0x767e]);
  (604377053609438900, [0x5377]);
  (607609326227377900, [0x514b]);
  (611064781875496400, [0x4f4d]);
  (611353382364409900, [0x67b6]);
  (613633516223734300, [0x8a318bb8]);
  (615183010872138000, [0x4fe95006]);
  (619855034459920800, [0x8258]);
  (627299724236200350, [0x6761689d]);
  (628527570494071900, [0x5343]);
  (630888791304607100, [0x96f6]);
  (631170283397588200, [0x8f1b8f86]);
  (653238289644964800, [0x54689031]);
  (656634505234946200, [0x679a]);
  (659212916950517700, [0x5ea7]);
  (668799920749338800, [0x98019875]);
  (677035464907712700, [0x98059879]);
  (679290351876374100, [0x90e8]);
  (682770981648386900, [0x5957]);
  (692301999628819400, [0x7d1a7ea7]);
  (693477715327423800, [0x6574]);
  (695468491093216300, [0x53f0]);
  (696682261894658700, [0x5146]);
  (698600128897715900, [0x6b3e]);
  (702406085080150400, [0x5ea6]);
  (705915217061277500, [0x53d1767c]);
  (707868697663341600, [0x624b]);
  (714778824332940600, [0x671f]);
  (714941558298878100, [0x96469678]);
  (716418205310508200, [0x7bc08282]);
  (722027151975612650, [0x62406298]);
  (722905120740817200, [0x79d2]);
  (724864221688534100, [0x958095e8]);
  (725405250961358900, [0x7c7b985e]);
  (730031422742966300, [0x4ef6]);
  (730410929839821400, [0x7b49]);
  (734089950754474100, [0x5bf95c0d]);
  (734287384184845850, [0x7bc7]);
  (744036030107537900, [0x7ae0]);
  (744472712024171900, [0x4ea9755d]);
  (745572833130369300, [0x4f8b]);
  (748719160075947800, [0x5757584a]);
  (749406448004724000, [0x62366237]);
  (753632428933712300, [0x5c425c64]);
  (757295842251690300, [0x78c5]);
  (763187430605349700, [0x8d77]);
  (768053255280304300, [0x4efd]);
  (770294245420262700, [0x59048655]);
  (770862428767005800, [0x6210]);
  (778558532880618600, [0x98469897]);
  (779485896559151600, [0x652f]);
  (783931072816234900, [0x5c465c4a]);
  (785898349376105450, [0x5f205f35]);
  (787905105681186300, [0x5f00958b]);
  (788923790211885700, [0x8def]);
  (791341870031607100, [0x6839]);
  (817578296478356300, [0x8cb38d30]);
  (818491544834683500, [0x5177]);
  (821755237765985700, [0x51af99ae]);
  (823187243143460600, [0x8086]);
  (828114348044138800, [0x4ee3]);
  (835447475352693800, [0x56e25718]);
  (843361207408566200, [0x7d447ec4]);
  (853245790872229500, [0x959395f4]);
  (853897258974348900, [0x573a5834]);
  (856546420519046400, [0x65a48f2a8f6e]);
  (857219823737181000, [0x7247]);
  (859267676871535000, [0x88e191cc]);
  (861358345353466200, [0x884c]);
  (862776808852662000, [0x4e0b4f0d]);
  (863493657800523300, [0x7b147b46]);
  (865675562539987100, [0x9053]);
  (866413573269749400, [0x59da5e2d5e45]);
  (871738024721630600, [0x7396]);
  (874912894553088600, [0x5bf8]);
  (880723657633816800, [0x74e6]);
  (881582032002955900, [0x52195247]);
  (887806262890678000, [0x56de672c]);
  (889658167667401800, [0x518a518c]);
  (891545016097840000, [0x5339]);
  (897429066100133400, [0x7dad7ef4]);
  (901553361953538300, [0x5e55]);
  (903681101798266800, [0x6b65]);
  (904762193408688400, [0x5b97]);
  (908077414140378500, [0x6bb576ee]);
  (923867717084959300, [0x63926735]);
  (927895106998753300, [0x5217]);
  (930673063409460800, [0x68636a947c92]);
  (932091526908656400, [0x96c6]);
  (937975576910949900, [0x53e3]);
  (941052742777625200, [0x4ee8]);
  (942627578474439000, [0x5b635c3a65b9]);
  (944227612609083200, [0x62797968]);
  (945853664696261200, [0x680b68df7dda7ebf]);
  (950896750058950400, [0x5c40]);
  (954405882040077500, [0x9762]);
  (956207732590345200, [0x634c]);
  (958042646457165000, [0x7532]);
  (959911859758380200, [0x8f2f8f91]);
  (961816679255449700, [0x4efb5f6d73ed]);
  (963758487841159800, [0x89d2]);
  (967759021302529700, [0x8eca8f66]);
  (969820950022803400, [0x53055934982d]);
  (976274802136560500, [0x676f]);
  (988053105702198800, [0x961f968a]);
  (990584886500627700, [0x53e5]);
  (993182435140953900, [0x6d3e]);
  (998589157267981300, [0x628a]);
  (1001406244964651000, [0x57086876]);
  (1004304998651976200, [0x58f998039877]);
  (1007290294966944400, [0x53f665878449]);
  (1010367460833619700, [0x5c0a76d876e48f098f7d]);
  (1013542330665077700, [0x591c]);
  (1016821312947376800, [0x51fa]);
  (1020211468114945000, [0x7897]);
  (1027357364513159500, [0x53c1901a]);
  (1031131397311444300, [0x5c3e74f6]);
  (1039135668078797900, [0x4e59682a]);
  (1043391629520677500, [0x53455e62]);
  (1047836805777760800, [0x526f54c15c01]);
  (1052488807341250200, [0x67aa69cd6ef4]);
  (1057367823758193200, [0x4edf]);
  (1067903875323975900, [0x68f576d2773c]);
  (1073619716707970700, [0x4e08]);
  (1079682178889614300, [0x80ce]);
  (1086136031003371400, [0x77408457]);
  (1093035318152066500, [0x6247]);
  (1100446115367438800, [0x4f706b4c]);
  (1108450386134792400, [0x679d888b8d9f]);
  (1117151523833755400, [0x52fa5cf07bb191cd98029876]);
  (1126682541814187700, [0x4e617ad99109]);
  (1137218593379970400, [0x66f267d28eab904d]);
  (1148996896945608800, [0x52005458547354cd54e197ff]);
  (1162350036208061000, [0x5eff62db684c7fa4]);
  (1177765104190787000, [0x5e275e40625368376a2376fe9910]);
  (1195997259870182300, [0x58f07d197eb88072]);
  (1218311615001603300, [0x4e1d580265976746675f67f16848687f7d729813987f99d59a7e9b25]);
  (1247079822246781300, [0x4e9b5e8a62fe644a65246846929694e2]);
  (1287626333057597900, [0x515c57a75e2e5e6b62c564d4670d756a76cf76de8a188bb08f298f88906d]);
  (1356941051113592400, [0x5e16634668696a016c6a7a0b7aef7e377f157f507fbd931893209524952d95cb961596359663])
].
(** prob_emit.go:83400-83408 probEmit, state 423 *)
Definition emit_423 : list (Z * list Z) := [
  (98125289207758340, [0x5df3]);
  (152656469191474330, [0x4e19]);
  (194084042970506250, [0x620a]);
  (228620161374352150, [0x5bc5]);
  (232442282656371950, [0x7678]);
  (349017441806945740, [0x7532]);
  (372378926925096300, [0x4e59]);
  (458878670673756700, [0x8fb0])
].
(** prob_emit.go:83409-83409 probEmit, state 424 *)
Definition emit_424 : list (Z * list Z) := [].
(** prob_emit.go:83410-84227 probEmit, state 425 *)
Definition emit_425 : list (Z * list Z) := [
  (221258411838312740, [0x4eba]);
  (386669772492116430, [0x4e8b]);
  (419420658369893750, [0x6708]);
  (424074991028088500, [0x8a718bdd]);
  (431172653471702900, [0x56fd570b]);
  (437543220707857100, [0x5934982d]);
  (438593192012538300, [0x6c34]);
  (446217689890978250, [0x519b8ecd]);
  (447895581603889250, [0x624b]);
  (450740564081626200, [0x932294b1]);
  (459737357085336650, [0x5e02]);
  (462651194866513600, [0x99ac9a6c]);
  (463827188086188700, [0x59048655]);
  (467227080903069700, [0x5fc3]);
  (470910353479667250, [0x5c71]);
  (471016906499871100, [0x4e6666f8]);
  (476720206339985400, [0x5175]);
  (478595644710210900, [0x53bf7e23]);
  (479110058261432500, [0x57ce]);
  (483193739732857700, [0x958095e8]);
  (484189791719252700, [0x5b57]);
  (485016475619337500, [0x8def]);
  (486451111407351500, [0x6027]);
  (486738605615911450, [0x91cf]);
  (487316085565299900, [0x513f5152]);
  (489068808136195900, [0x8eca8f66]);
  (490284418302199200, [0x6c146c23]);
  (492282978420114950, [0x7701]);
  (495028793373852150, [0x583162a5]);
  (497991659557794300, [0x9762]);
  (502113694387294400, [0x4e3b]);
  (503477172606454000, [0x533a5340]);
  (506576677591678100, [0x5b98]);
  (512954880542352050, [0x8336]);
  (514071229545664800, [0x7dda7ebf]);
  (517679967842224700, [0x5dde]);
  (522118605801224800, [0x56fe5716]);
  (522214345396857500, [0x4fe1]);
  (522228029967525500, [0x547d]);
  (526434616770904000, [0x753596fb]);
  (527136474554283100, [0x5149]);
  (529580943716482500, [0x6d77]);
  (532662252399859500, [0x7db27f51]);
  (533915708126200350, [0x98a898ce]);
  (534393698397152600, [0x6cb3]);
  (536061312823368000, [0x75c5]);
  (537008738195336200, [0x813881c9]);
  (540890836539474100, [0x9152]);
  (544347556537669000, [0x529b]);
  (544689612626268100, [0x795e]);
  (546208716584318100, [0x571f]);
  (547521875609767600, [0x773c]);
  (551476380806093850, [0x8c61]);
  (551935813756102100, [0x4ef750f9]);
  (551954235051171250, [0x79d1]);
  (552360364463008000, [0x706b]);
  (552749578187598400, [0x943594c1]);
  (556553613343436200, [0x67436b0a]);
  (557776336000392200, [0x515a9ee8]);
  (558836416599056200, [0x928594dc]);
  (559589193529450800, [0x78b3]);
  (560167518005023450, [0x8239]);
  (562473911964878700, [0x9f8d9f99]);
  (564541810299815300, [0x503c]);
  (564688177288831400, [0x623f]);
  (567834026498572000, [0x8840]);
  (568462210087116100, [0x8868]);
  (568592673249782600, [0x725b]);
  (571215991322550650, [0x8b498bc1]);
  (572226214303935250, [0x71df8425]);
  (572587878350954100, [0x6751]);
  (574047758293069300, [0x503a50b5]);
  (574093724738374300, [0x6d1e]);
  (574185721065009700, [0x7530]);
  (574439148225183000, [0x81e3]);
  (574485294972656300, [0x9b5a9c7c]);
  (574762623553453900, [0x8a698bd7]);
  (577009383167519800, [0x60c5]);
  (577056731653252900, [0x7532]);
  (577960638854289700, [0x811a8173]);
  (582356951196401250, [0x836f85e5]);
  (582882675276198400, [0x4f539ad4]);
  (583866413818649700, [0x67aa69cd]);
  (584476636917414100, [0x8349]);
  (586096417800079800, [0x7164]);
  (586148271573603600, [0x98ef996d]);
  (586355955968087500, [0x5de5]);
  (588589658087303500, [0x6d3b]);
  (589658329759375550, [0x93ae9547]);
  (590765700967344900, [0x5634]);
  (591885472329103900, [0x76d09e7d]);
  (593212558435295400, [0x5546]);
  (594501091669285000, [0x6e56]);
  (595322044616896800, [0x6cb9]);
  (595863587909878400, [0x5893]);
  (596638229568623100, [0x697c6a13]);
  (597186967407648000, [0x4e9196f2]);
  (598118018648886700, [0x9662]);
  (598822040330588800, [0x5229]);
  (599442151575062400, [0x8089]);
  (600424448504637400, [0x793c79ae]);
  (601446706354486000, [0x5c9b5cf6]);
  (602113779780225300, [0x8cca8d3c]);
  (602296483850537100, [0x7406]);
  (603553976268009700, [0x92fc94a2]);
  (604796228267865500, [0x5a18]);
  (606022465925085500, [0x8a5e8bcd]);
  (607424209169913500, [0x90e1]);
  (607713365997893450, [0x4e619109]);
  (609302502731556900, [0x817f]);
  (609794065248489600, [0x7bc08282]);
  (610156086377789100, [0x7389]);
  (612964696265119600, [0x76ae]);
  (613474641276354500, [0x96e8]);
  (613850260635522600, [0x6bbf]);
  (614674724254481700, [0x54e5]);
  (615089519180353700, [0x9b3c]);
  (615228167382807000, [0x68656a4b]);
  (616029146765257350, [0x59885abd]);
  (616695698961228440, [0x5b9d5bf6]);
  (617864060632077000, [0x7f6a]);
  (618042282030168360, [0x5e03]);
  (618614734398452450, [0x5c4096ea]);
  (619334939167954600, [0x70df7159]);
  (619371085924176900, [0x864e]);
  (619443418657891200, [0x5200]);
  (620279027516368700, [0x961f968a]);
  (621011363268322600, [0x6c57]);
  (621084892683400200, [0x5c3e]);
  (621268953107165800, [0x661f]);
  (622828583680993600, [0x5e97]);
  (624147118511318600, [0x793e]);
  (624298921197016300, [0x8033]);
  (625023147728230500, [0x56e25718]);
  (625368041727900500, [0x529f]);
  (626448716081410700, [0x6838]);
  (627032488900979250, [0x7d197eb8]);
  (629003384387838250, [0x8ca18d22]);
  (629242523601045900, [0x7a057a0e]);
  (629362308003469800, [0x70ae]);
  (629602308118669900, [0x72d7]);
  (629642364197715400, [0x754c]);
  (630245138777467150, [0x7239]);
  (631339374619561500, [0x706f71c8]);
  (631420907441037000, [0x5ba4]);
  (631829571679582300, [0x5fd7]);
  (633940140400814740, [0x541b]);
  (634107574512764200, [0x7cae7ce7]);
  (634275289436773000, [0x9ce59e1f]);
  (634864516730768700, [0x6c99]);
  (635925422076956900, [0x8857]);
  (636395809944504300, [0x7d20]);
  (636782325349467000, [0x65d7]);
  (638737634222078800, [0x7248]);
  (639089282936091400, [0x724c]);
  (639265572095894400, [0x77ff7926]);
  (640553048259460100, [0x5668]);
  (640642453719148300, [0x83dc]);
  (640776711962631400, [0x592268a6]);
  (640956003808060350, [0x53825ee0]);
  (641045770420910400, [0x620f6232]);
  (641766819060902600, [0x8170]);
  (642812520792460100, [0x798f]);
  (644007937326731800, [0x5f1f]);
  (645077466238406700, [0x7968]);
  (645358365299512200, [0x73ed]);
  (646869967062147200, [0x7bad]);
  (647730393020550000, [0x7403]);
  (648018854759036000, [0x7259]);
  (648453113583815300, [0x932f9519]);
  (649229816517581250, [0x96de9e21]);
  (649767320865662800, [0x589958f36bbc7246]);
  (650209256276810000, [0x4f5b]);
  (650702597188605600, [0x732a8c6c]);
  (652348109261250000, [0x866b87f2]);
  (652448712891465550, [0x81118166]);
  (653003849315865900, [0x4f8b]);
  (653460355307741300, [0x6b4c]);
  (653714873134116400, [0x6728]);
  (655152269545323200, [0x97f3]);
  (655930887545877300, [0x7cd6]);
  (656505751945824000, [0x5251528d]);
  (657031239229659900, [0x984d989d]);
  (658037337205300700, [0x6c646e6f]);
  (659107438374502850, [0x5c4b]);
  (659161245209268800, [0x53f68449]);
  (661008120083219500, [0x5e8a]);
  (661062959678780900, [0x6599]);
  (662833896940576000, [0x6b3e]);
  (663337676343571750, [0x9178]);
  (664579928343427450, [0x8ca88d27]);
  (664864423556650600, [0x7db17eb2]);
  (667754798174885500, [0x65c5]);
  (668048484142216500, [0x6ce5]);
  (668225110623224600, [0x5761]);
  (668402049625447250, [0x91dd9488]);
  (668520183130030300, [0x7f8a]);
  (668638456354935300, [0x5361]);
  (668697645465867200, [0x53d4]);
  (669231929906916800, [0x5e995edf]);
  (669351048443932050, [0x592b]);
  (669828946605567100, [0x53855ef3]);
  (670610435403990900, [0x819c]);
  (671519808145409900, [0x6c9f6e9d]);
  (671580728037638150, [0x9418949f]);
  (672930441778883700, [0x80be814e]);
  (674549406155642400, [0x6bd2809d]);
  (675558878450343400, [0x5956734e]);
  (677414931731680000, [0x92c194dd]);
  (678193145775885500, [0x92c5950c]);
  (679306086887069950, [0x4ed7]);
  (680232019428349600, [0x5c3f]);
  (680498153983301000, [0x7a9d7aa9]);
  (680698220738930700, [0x51b0]);
  (681704602932854000, [0x72fc]);
  (683062397044634800, [0x86cb]);
  (684231196874776250, [0x5375]);
  (684438881269260200, [0x606f]);
  (685343864821251900, [0x5b54]);
  (685764327949455100, [0x86c7]);
  (685975224336937100, [0x5cad5dba]);
  (686610595341328440, [0x50e7]);
  (688758136713885700, [0x53c253c3]);
  (689922633133573700, [0x7070]);
  (690510006334783100, [0x7238]);
  (691620717494323500, [0x8ef88f74]);
  (691695205393484500, [0x5cb8]);
  (692743904143009300, [0x984c9898]);
  (692819233713426500, [0x6f6e]);
  (693121120735151700, [0x6881]);
  (694184960555657200, [0x934b9505]);
  (694951835479587300, [0x96fe9727]);
  (695105918715002900, [0x67f3]);
  (695183049455425200, [0x8ab28bfe]);
  (695260239733283400, [0x9e7f]);
  (696973677290906600, [0x6cea6dda]);
  (697367223646930100, [0x820c]);
  (698000137152094900, [0x80ba]);
  (700817224848764500, [0x80c3]);
  (701390292319663000, [0x6001614b]);
  (704052679190880150, [0x62db]);
  (704221455602252100, [0x74e6]);
  (705496440999440400, [0x67f196f7]);
  (705839200546667100, [0x8c46]);
  (706614732223414950, [0x4e1d7d72]);
  (707309179458696050, [0x932b9521]);
  (707483547419178700, [0x5211]);
  (707833198125051700, [0x6d6a]);
  (707920802160439700, [0x978b9f529f7f]);
  (708271987771593600, [0x7a917aaf80f681a0]);
  (709333005682795200, [0x67c4]);
  (710495289665594400, [0x5e935eab]);
  (710675307716009300, [0x83cc]);
  (710855650415924300, [0x925b94c5]);
  (713045518946688100, [0x7a0b89d2]);
  (713230191206004500, [0x4e95]);
  (714158702983572500, [0x6c27]);
  (714438946044142700, [0x9176]);
  (715284418436035900, [0x732b8c93]);
  (715473275904822800, [0x7de37f18]);
  (716232292831490300, [0x7c89]);
  (716327576307017560, [0x781678da]);
  (716997114915316000, [0x59d0]);
  (717381730774063800, [0x92239499]);
  (718349792545136200, [0x7095]);
  (718544534573575700, [0x5f71]);
  (718642047989396400, [0x52b252c1]);
  (719327317435600400, [0x70897210]);
  (719819686721778850, [0x5366]);
  (719918452161906150, [0x830e8396]);
  (720712107121479750, [0x74f6]);
  (721813770742130000, [0x5976638c]);
  (724054190317514750, [0x699c]);
  (726556927828039400, [0x5751]);
  (726874220532097100, [0x6c226c2b]);
  (726980208883301500, [0x6cc9]);
  (730103780001232200, [0x82d7]);
  (730213249087150400, [0x77fd7845]);
  (730542377195557700, [0x78b1]);
  (730652327728899400, [0x52675287]);
  (731314581804948700, [0x5f26]);
  (732204465319161700, [0x78f79a629a74]);
  (732540223888646300, [0x575f58b3]);
  (733102338915689260, [0x9c579cde]);
  (733328072645854250, [0x67f4]);
  (733781074553029300, [0x707d707e]);
  (733894646399422000, [0x9b6f9c81]);
  (734122177783135600, [0x80a9]);
  (734464448510885800, [0x5e8f]);
  (735729560266241700, [0x718a7891]);
  (736309944948221700, [0x82318259]);
  (736776690252971200, [0x9ebb]);
  (738308835722414500, [0x4f1e5098]);
  (739744267067582850, [0x5c975d176eaa]);
  (741200603486372500, [0x80c681bd]);
  (741813726191866200, [0x867e8766]);
  (741936803130479500, [0x79d2]);
  (742430631294537700, [0x58a8]);
  (744178491021933650, [0x75f0]);
  (744304514983162400, [0x786b]);
  (746471585128325400, [0x7802]);
  (748818498582410100, [0x8cec8d26]);
  (749215062221744800, [0x813e]);
  (749480314366657800, [0x7709]);
  (749613204751663300, [0x926494a9]);
  (749746271970233700, [0x6e20]);
  (750012938794925250, [0x7978798d]);
  (750414277126271100, [0x9375952e]);
  (751763825273759600, [0x659174dc920994a0]);
  (751899787225363500, [0x743480a08178]);
  (752719463945781400, [0x52c7]);
  (752994189393295250, [0x971c]);
  (753684323257364600, [0x81c2]);
  (755360340143111100, [0x570657139b42]);
  (755642427777275200, [0x8f298f88]);
  (756351147965580800, [0x53f8]);
  (757064926870410000, [0x8247]);
  (757639641095966800, [0x53c9]);
  (758507953353312900, [0x82ef9f20]);
  (758799074374058700, [0x7d177eb1]);
  (758944953320424700, [0x59be]);
  (759091045384392200, [0x68636a94]);
  (760861003094332300, [0x97f597fb]);
  (761757870092608300, [0x918b]);
  (761908133081061840, [0x93339530]);
  (763576102000927400, [0x9df99e70]);
  (764035872925790300, [0x575d58e9]);
  (764806886768387000, [0x7b807c21]);
  (765428006777651150, [0x924094be]);
  (765896391708893700, [0x59d1]);
  (768914889342733500, [0x7f38]);
  (769724610365995400, [0x5824]);
  (770213608895414700, [0x80a5]);
  (770377141229487700, [0x93b3954d9f9c9f9f]);
  (770869348950030500, [0x76df]);
  (771529417353165800, [0x6c2e923e94c0]);
  (771861092615765100, [0x97ad]);
  (772527761751584000, [0x7076]);
  (772695125807387000, [0x683c]);
  (773705235406037400, [0x68a8]);
  (775411761461456100, [0x821f]);
  (778204264032003100, [0x68cb]);
  (779271889831137300, [0x6c5e]);
  (779630313153918800, [0x849c]);
  (779810007721588950, [0x5e3d]);
  (780170368471918900, [0x93829541]);
  (780713356231355800, [0x8b0e8c1c]);
  (781624939572156750, [0x7ca593a294a8]);
  (783100981130468800, [0x76c69c2d9ccd]);
  (784222488212482800, [0x6750]);
  (784599136492030400, [0x92f09502]);
  (786503955989099900, [0x7901]);
  (786696448830058300, [0x6f6d]);
  (786889312920698900, [0x6f06]);
  (787859252629570200, [0x6843]);
  (788249878126276800, [0x62f3]);
  (789035736787528900, [0x6c28]);
  (791431060889778200, [0x8702]);
  (791835919742378200, [0x5cb3]);
  (792242424367195100, [0x4e59]);
  (792446298036180000, [0x5e015e63]);
  (792650588199160000, [0x7caa7cde]);
  (793265974756597800, [0x9c139cc3]);
  (793471948052898900, [0x5de2]);
  (794508226756453600, [0x59dc]);
  (796401027745005400, [0x6c2f]);
  (798114131738023800, [0x69bb82bd]);
  (799418498057226800, [0x959895f8]);
  (799857095251552150, [0x644a65248721881f]);
  (800740103196379300, [0x9226949b]);
  (802304380903424700, [0x66b47281]);
  (803209364455416600, [0x57df]);
  (806442902519710200, [0x4ec7]);
  (806913491623451400, [0x7b4b]);
  (807149619242019500, [0x7d797ee2]);
  (807861366018905800, [0x85aa]);
  (808099745154433400, [0x5e06]);
  (808338693894171600, [0x92c794a1]);
  (808578214966767000, [0x5f27]);
  (809058985123577500, [0x5c4e]);
  (809784502211694600, [0x67a368d7]);
  (810027515697023800, [0x7624]);
  (810760119706231000, [0x5c416c1f816e]);
  (811498130435993300, [0x85e4]);
  (811745349350532100, [0x6d466f3f9905997c]);
  (811993180951979000, [0x9738]);
  (813745416021199100, [0x84718525]);
  (815272163234278000, [0x9db49e64]);
  (816822581887874600, [0x947c9523]);
  (818662318401846200, [0x927b94ec]);
  (820266630885903700, [0x764c]);
  (820807172742594600, [0x85d5]);
  (822446553720162200, [0x51fd]);
  (822722415964070200, [0x4ed5680f6b04]);
  (823276434001631700, [0x8a348bc99d5d9e45]);
  (823554598297819300, [0x5bbe8cd3]);
  (826666589169199800, [0x68da]);
  (826954359151961200, [0x96c1]);
  (827822671409307500, [0x59b9]);
  (828405763440386700, [0x7e41808b]);
  (829286826408602300, [0x7b1b]);
  (831674999608941000, [0x8c79]);
  (831977571700594600, [0x76b176ba]);
  (832890820056921800, [0x925194c2]);
  (833197099009976400, [0x8205]);
  (833812485567414400, [0x91c9]);
  (834121604824381500, [0x7837871c]);
  (834431682592206400, [0x7a57]);
  (835681698868629600, [0x5076]);
  (837586518365699000, [0x70ad]);
  (839528326951409200, [0x77f3]);
  (841175810671759700, [0x5c51]);
  (842177488496106700, [0x7898]);
  (843189301512665200, [0x86958836]);
  (843869576244940400, [0x72ee734577db]);
  (844554510429497900, [0x6ce26cf5]);
  (845244168335404000, [0x811381bf]);
  (845938615570685000, [0x533e]);
  (846989413330526600, [0x8235]);
  (847342147382323500, [0x59e8]);
  (849124725777583600, [0x787c]);
  (849485086527913300, [0x80fa]);
  (850209727379990100, [0x7c27]);
  (850574026507840100, [0x53cb7d687ed2]);
  (851674955058677200, [0x7a96]);
  (852415699186463300, [0x919b]);
  (854671433928870700, [0x5f13]);
  (855052386770537600, [0x7ae5]);
  (858547888273895200, [0x686869f3]);
  (859740745360422700, [0x917191ac]);
  (861353683553411000, [0x74ee7515]);
  (862993064530978600, [0x53648c829e75]);
  (865928285732231400, [0x75ae7621874987ec]);
  (867213099980016200, [0x971e]);
  (868514636791223200, [0x91e99492]);
  (868952274251203000, [0x5708]);
  (870276796926205200, [0x79e4]);
  (875289235644462000, [0x592f]);
  (877653411950166200, [0x8019]);
  (878133029176515500, [0x70c370f4]);
  (879585839232806400, [0x9c499cd6]);
  (881556346340739700, [0x68696a01]);
  (882055100491843500, [0x8679]);
  (884586881290272600, [0x93989549]);
  (886659494341984300, [0x97099ef4]);
  (888775975461188500, [0x6e23785d]);
  (893148256562571800, [0x915a]);
  (893708482117438800, [0x52ab]);
  (894271863889264300, [0x4e1a696d95a59600]);
  (895408239754295800, [0x6c26]);
  (897720481496381200, [0x545854e1]);
  (898306993441621000, [0x93ac9550]);
  (898896965654339800, [0x7b19]);
  (899490439206321400, [0x5f40]);
  (900087455904971600, [0x7852]);
  (902511817065971000, [0x70f7]);
  (903746400648201000, [0x576f]);
  (905627333843950500, [0x937a9517]);
  (906262256611816500, [0x7b50]);
  (906901236421693500, [0x7ce0]);
  (907544325454722600, [0x7b3c7c60]);
  (908843045007403700, [0x75a4]);
  (916304131386521100, [0x936c9539]);
  (917722594885716900, [0x74e2]);
  (918439443833578100, [0x75e3]);
  (919888744563834700, [0x65458cbf8d38]);
  (920621348573042000, [0x7bf7919a]);
  (922102857151556000, [0x7b0b7b4d]);
  (925905596710480000, [0x59ca]);
  (926683810754685500, [0x4e2b895f9328951a]);
  (928258646451499400, [0x6c296c2c]);
  (929858680586143500, [0x87af]);
  (933974487835494200, [0x6960]);
  (934818374700080700, [0x86c68ce68d4b]);
  (939148055275413200, [0x763e766e]);
  (943673714434225300, [0x949a]);
  (945542927735440500, [0x7aa0]);
  (946490802130894900, [0x7d447ec4]);
  (949389555818220100, [0x51aa5e42]);
  (951369818547838000, [0x9433956d]);
  (952374852133188200, [0x517395dc]);
  (954415739296309000, [0x881393419528]);
  (955452017999863700, [0x8e7c]);
  (958626887831321600, [0x67ef]);
  (964153155698826600, [0x5f2f5f4e]);
  (966452107521296500, [0x6487]);
  (970002776366987400, [0x7b5d7b8f]);
  (976215954477688000, [0x92b99508]);
  (980138025793016300, [0x6748]);
  (982840893031808200, [0x7e9c7f06]);
  (985618849442515600, [0x92a594f1]);
  (997573364507494000, [0x7e2b7f1d]);
  (999173398642138000, [0x85b9]);
  (1000799450729316000, [0x76b4]);
  (1004133092756075200, [0x9c3e9cd4]);
  (1005842536092005300, [0x869d8814]);
  (1009351668073132300, [0x75c2]);
  (1014857645791435000, [0x8869]);
  (1016762465288504600, [0x8f4d8f9993649538]);
  (1018704273874214600, [0x92a694df]);
  (1020684536603832600, [0x923894b9]);
  (1022704807335584600, [0x5806]);
  (1029022697497737800, [0x525475b176b0]);
  (1031220588169615300, [0x74ba7663766c958295e9]);
  (1033467873754821100, [0x637a]);
  (1040529630476216400, [0x574292bc9509]);
  (1045530672533682500, [0x764d]);
  (1048128221174008700, [0x93e29556]);
  (1053534943301036200, [0x6ce178c5]);
  (1056352030997705800, [0x923094c8]);
  (1062236080999999300, [0x837b]);
  (1068488116698132600, [0x79e7]);
  (1078666386129126800, [0x57d8585262479df29e6b]);
  (1089999254659827200, [0x7ad68c4e]);
  (1112313609791248000, [0x6485755c]);
  (1134627964922669100, [0x5e55]);
  (1141081817036426200, [0x9f13]);
  (1147981104185121400, [0x7897]);
  (1155391901400493600, [0x78777f719e7c]);
  (1181628327847242600, [0x92aa94d5]);
  (1192164379413025300, [0x783c]);
  (1203942682978663600, [0x80f892f8952f]);
  (1217295822241116000, [0x6cfb70098016]);
  (1250943045903237100, [0x64cd656380229572]);
  (1273257401034658200, [0x515c]);
  (1342572119090652700, [0x4eff4f1768076a19773e7af9])
].
(** prob_emit.go:84228-85328 probEmit, state 426 *)
Definition emit_426 : list (Z * list Z) := [
  (196320725959340500, [0x65f66642]);
  (381983687470704370, [0x5b50]);
  (427603681465986600, [0x5e085e2b]);
  (429797688341063800, [0x8eab]);
  (431827985917421750, [0x7269]);
  (449768861580204500, [0x4f17773e]);
  (450370559083366300, [0x610f]);
  (452309498969457800, [0x72b672c0]);
  (454725166537286600, [0x5f62]);
  (455646301432610300, [0x928094f6]);
  (461522172813814600, [0x53f2]);
  (465633341226653500, [0x91d1]);
  (466060327357870000, [0x677f]);
  (466081724597707700, [0x6587]);
  (470344199151880300, [0x4e166c11]);
  (474098479202966000, [0x77f3]);
  (480168187183860500, [0x673a6a5f]);
  (485298813294706650, [0x52bf52e2]);
  (486682828074924300, [0x5352]);
  (486919763818254400, [0x8272]);
  (488621027603964200, [0x57fa]);
  (493341992045172300, [0x8cea8d28]);
  (494217085844145100, [0x76ee]);
  (496685638288002300, [0x5883]);
  (498711246955575700, [0x4f539ad4]);
  (499784602519886600, [0x65cf]);
  (499874571036976350, [0x4f01]);
  (500597248075589100, [0x516c]);
  (501112322688054200, [0x804c8077]);
  (502365586837359800, [0x5be8]);
  (510600822369793000, [0x6797]);
  (512659271970005200, [0x4e1a696d]);
  (512727484796661100, [0x5e9c]);
  (514865497269613800, [0x6e90]);
  (515987135386865200, [0x654c6575]);
  (516907821777097200, [0x4e497fa9]);
  (517442868532380200, [0x9aa8]);
  (518413226550654100, [0x8a0a8baf]);
  (523944419192236000, [0x53f8]);
  (524097207610041400, [0x7687]);
  (525057460811539300, [0x5bfa]);
  (526222070247797800, [0x5ba2]);
  (535417844472938600, [0x6848]);
  (537406669212921800, [0x7237723a]);
  (539124394777077050, [0x679c]);
  (545972923724060700, [0x4ed9]);
  (547121261701833000, [0x8863]);
  (549064957489483300, [0x5c385c4d]);
  (549853138909708600, [0x5144]);
  (550199931429672000, [0x8a9e8bed]);
  (550299236303771200, [0x82308266]);
  (550597743988116500, [0x6c0f]);
  (558581256239214300, [0x81088109]);
  (558797355729037800, [0x7236]);
  (559448470346237800, [0x4ed35009]);
  (560818730207457900, [0x8c37]);
  (563390140751359800, [0x4ead]);
  (567493576886295250, [0x65e8]);
  (568680534441833600, [0x901f]);
  (568859799503285600, [0x8cc78d44]);
  (571281225315345100, [0x653f]);
  (572700564168512000, [0x667a]);
  (573136566104919900, [0x96359663]);
  (573888449346322550, [0x5a03]);
  (574392864034990400, [0x5f79]);
  (576371862550096500, [0x7af9]);
  (576759459934565700, [0x519c8fb2]);
  (579249759005100800, [0x8a548bcf]);
  (579316138031766400, [0x58eb]);
  (581192868716935600, [0x73e0]);
  (584774518770326200, [0x6db2]);
  (587187694778313850, [0x5b5d]);
  (590103353207459400, [0x6821]);
  (590771259215426500, [0x56ed5712]);
  (592498677309708600, [0x80f8]);
  (592802167679224100, [0x5f845f91]);
  (592954258963294740, [0x5473]);
  (593411925666035960, [0x54e8]);
  (593871696590898900, [0x5a5a]);
  (594488031361665750, [0x58c1]);
  (594797629132178500, [0x68fa]);
  (595185979134818300, [0x9f3b]);
  (595419715119688800, [0x99289986]);
  (595497748678076900, [0x7d0b7eb9]);
  (597787623701745900, [0x8179]);
  (598509069716679200, [0x658b9f4b]);
  (598992941628501500, [0x5f0f]);
  (599560434031104000, [0x56ca]);
  (599723167997041500, [0x7b56]);
  (601613894275274800, [0x9636968e]);
  (604561476088570200, [0x666f]);
  (605075616038612000, [0x90ce]);
  (605161563615883850, [0x8377]);
  (605592413054456300, [0x93e1955c]);
  (607071343881542700, [0x7fc5]);
  (607598585876200000, [0x83b284ee]);
  (609018308036557800, [0x78c1]);
  (609197198960830300, [0x95a39601]);
  (609376410478328400, [0x9675]);
  (611552380284443200, [0x69fd]);
  (611644081345431400, [0x7ffc]);
  (611827736126161500, [0x90a6]);
  (615097527654352750, [0x68c9]);
  (615478118028120600, [0x822a]);
  (615764514405263500, [0x9ea59ea6]);
  (618871560452637500, [0x524252915b63]);
  (620161900936228250, [0x75c7]);
  (620261850969536600, [0x59bb]);
  (620964312463233100, [0x5937]);
  (621570374924402200, [0x5f69]);
  (628600011863441700, [0x93c894fe]);
  (629035742400337300, [0x8f4e8f7f98389888]);
  (630243884497757700, [0x808c]);
  (631690765609749400, [0x8ce28d249b54]);
  (633272719504238700, [0x4eea5100]);
  (634188057702887300, [0x5bab5bae]);
  (634303066341211100, [0x7334]);
  (634533481189696150, [0x7a9f8cac8d23]);
  (634995909759407500, [0x864f865c]);
  (636044259488893400, [0x5178]);
  (637459377443517600, [0x4ec650d5]);
  (639620325876803200, [0x7a74]);
  (640106944841920460, [0x68a2]);
  (640595943371339600, [0x5238]);
  (641953151125893900, [0x517d5eb57378]);
  (642701284291122800, [0x7a3f]);
  (643077460283312000, [0x5974]);
  (643834084321643550, [0x7c4d]);
  (644851904813219200, [0x74f7]);
  (645493343830985560, [0x798579aa]);
  (646919161893691200, [0x9d289e2d]);
  (647180599951098200, [0x7a97]);
  (647442723299085700, [0x6cca]);
  (650507586772930150, [0x58755c18]);
  (650914366994862700, [0x78a7]);
  (651459327471619200, [0x55078aed8c159f0e]);
  (653251243095645700, [0x93269526]);
  (654229587726552700, [0x540f]);
  (654792969498378300, [0x5a01]);
  (655359543251946100, [0x75be]);
  (655786590164291300, [0x5d16]);
  (656502412834308400, [0x722a]);
  (656790182817069900, [0x5821]);
  (656934378948760000, [0x898f89c4]);
  (657658495074415900, [0x5b85]);
  (657803949645515400, [0x9645969b]);
  (659418071263453900, [0x7def7eac]);
  (660160465170582100, [0x6a21]);
  (660908411813711400, [0x9633967d]);
  (662573855304225100, [0x85fb]);
  (663957428489490100, [0x888d]);
  (664112347188173050, [0x5e1d]);
  (665203550533271300, [0x810a]);
  (665832483424027700, [0x68cd]);
  (666624253197706300, [0x708e]);
  (668550476477211600, [0x82d4]);
  (668875152087098500, [0x7f72]);
  (669855552096760600, [0x9091]);
  (670184499761800500, [0x72ac]);
  (671011634336868200, [0x4ec1]);
  (671845667528490150, [0x4e73]);
  (673194760502591600, [0x6ee97058]);
  (673364684077887600, [0x9214949e]);
  (673705399910049100, [0x5de8]);
  (675426612798161200, [0x68d5819d]);
  (675600374788015200, [0x55e3]);
  (676473742784890800, [0x5c4f]);
  (677177971047432100, [0x7a3b]);
  (678243700494830800, [0x72f17344]);
  (678601482629619200, [0x574a]);
  (679140567493106850, [0x81b3]);
  (680592498625552200, [0x6d32]);
  (681142454182156100, [0x5320]);
  (682810704178149700, [0x5154]);
  (682997794971730800, [0x5a46]);
  (683749678213133550, [0x6548]);
  (683938535681920400, [0x6756]);
  (684697552608587900, [0x6c60]);
  (685270620079486500, [0x5ac2]);
  (685462374692413600, [0x85e9]);
  (686426702319594000, [0x91ca91cb]);
  (687204916363799500, [0x82af]);
  (687400419847379850, [0x7fc1]);
  (688978361857776400, [0x755c]);
  (689177366898577400, [0x68af]);
  (690178376258087400, [0x6069]);
  (690379786195257600, [0x6ee86ff187f9]);
  (691596839757283100, [0x6749]);
  (693035713502493100, [0x8c8c]);
  (693242967462690300, [0x7235]);
  (693450651857174200, [0x6c41]);
  (693658768477556600, [0x9014]);
  (694285729778916200, [0x5df7]);
  (694705898464286200, [0x8de18ff9]);
  (695339480309194800, [0x809a]);
  (695764109397339900, [0x733f]);
  (696404453100860600, [0x96c4]);
  (696618815455185700, [0x51a2585a87ba]);
  (697264673459126900, [0x574e59875a6683ca]);
  (697697574568085400, [0x5e105e335eca67f3]);
  (698132357861695800, [0x5589]);
  (698350460456331850, [0x88d9]);
  (698569039778329900, [0x7c3f]);
  (698788097916311700, [0x532a]);
  (699448166319446950, [0x5e1565a7684c]);
  (700112620591313700, [0x5bb476d176e3]);
  (701005483665743900, [0x5f0a]);
  (701229950651126300, [0x86d9]);
  (702132891323065700, [0x5951]);
  (702815487830105700, [0x68d8]);
  (703502775758881900, [0x672f7e697ef38853]);
  (705593444240813300, [0x67287fe0]);
  (707011907740008900, [0x53cb]);
  (708692619571647100, [0x8ecc8f68]);
  (710648672157096400, [0x67dc6ac3]);
  (710895891071635300, [0x978d]);
  (711143722673082000, [0x7554]);
  (712895957742302200, [0x983b9891]);
  (713402287937956900, [0x52cb52f3]);
  (713656417680824200, [0x7960]);
  (714166622869213700, [0x61676555]);
  (714679444505905700, [0x4f6c79d8]);
  (714936844905422900, [0x6d85]);
  (716233879949685700, [0x575b58c75ead]);
  (716495318007092800, [0x8fb0]);
  (717020253595707100, [0x8902]);
  (717283758359507700, [0x83f1]);
  (717547959305791600, [0x589f7dde7f0e]);
  (719147993440435700, [0x827a85dd]);
  (719417172607006800, [0x819b]);
  (719687078303923300, [0x6905]);
  (719957714463697600, [0x5e78]);
  (720229085050857250, [0x6912]);
  (720501194062293300, [0x68f177e2]);
  (721047643509501150, [0x868187fb]);
  (722705140018922400, [0x931895249be89cb8]);
  (722984080227680300, [0x88e48932]);
  (723544305782547250, [0x7b52]);
  (723825599920208700, [0x7bc6]);
  (724958756521163750, [0x82929e93]);
  (725244063419404400, [0x886b923494c3]);
  (725530186647507600, [0x674f6885]);
  (726393501361977900, [0x79be]);
  (726682937164614400, [0x6a907c377e6d8327]);
  (726973213130410500, [0x9699]);
  (727264334151156300, [0x9910]);
  (728142817106729600, [0x4e38916f]);
  (728732789319448400, [0x92bb9511]);
  (729029085832514100, [0x621f]);
  (729326262871429900, [0x520a6df56e0a70db71ed]);
  (730223129869705900, [0x80a2]);
  (730523881976101500, [0x82d1]);
  (731128113421697700, [0x5e7d9830988a9d729e4a]);
  (731736018029336000, [0x730e7375]);
  (732654860634776600, [0x5203]);
  (732963027288517400, [0x6be16c08]);
  (733272146545484650, [0x814a81d8]);
  (734832240589732600, [0x79e9]);
  (735147201480022300, [0x5740]);
  (735463157509059150, [0x73cd]);
  (735780114985187000, [0x5f8b8352]);
  (736098080276925000, [0x51a5]);
  (736417059813735000, [0x7d9c7efc]);
  (738027400570392900, [0x575e58628b66]);
  (738352604109030600, [0x7f3d8f148f8594b5]);
  (739006201207009100, [0x5f29]);
  (739334608727128100, [0x8b0a8c0e]);
  (739664098316813400, [0x79bd926c94bc]);
  (739994677130263300, [0x8e2a96c0]);
  (740659131402130200, [0x51f37591]);
  (741328030217209900, [0x51e49cf3]);
  (743020117966043600, [0x5e915ee1]);
  (743361998640922100, [0x502d82de]);
  (744049286569698300, [0x5a925dfe8e44]);
  (744394710056507100, [0x58f658fa]);
  (744741330854155800, [0x680e6adf75d5923794b4]);
  (745438197785765060, [0x916c98e29965]);
  (745788460840885200, [0x8dcb]);
  (746492689103426500, [0x87478805]);
  (747916200685613750, [0x9bc99ca4]);
  (748275267498686600, [0x4ed4]);
  (748997292296035300, [0x5b64685183ba9daf]);
  (749724568228943300, [0x7e967ea4]);
  (750090199349254300, [0x5e905eec6da76f97]);
  (750457172238150600, [0x9006]);
  (754585338135481000, [0x7840790e]);
  (755354572697796600, [0x8098]);
  (756519634419794100, [0x58519774]);
  (757303952165896600, [0x7da27ef8]);
  (757698429994998300, [0x51125e7c8549]);
  (758094470116607950, [0x5986599d7aff]);
  (758492084954571900, [0x5e1b6d5a]);
  (758891287081525700, [0x80bd]);
  (759694504251252100, [0x4fd167ff]);
  (760098545204952600, [0x8a238bc0]);
  (761320556338430100, [0x60e0]);
  (761731234533695500, [0x69cc6a796ad3]);
  (762143606252081700, [0x586c61a8]);
  (762973486533551200, [0x5703]);
  (763810311500602900, [0x559981c0]);
  (765933533511180300, [0x868a]);
  (766363641701119300, [0x8936]);
  (766795607815571000, [0x7a8d7ac5]);
  (767229447975430800, [0x9a3e9aa1]);
  (768542377119610000, [0x8fb1]);
  (769872773682246300, [0x5e169c779cc4]);
  (770769640680522400, [0x69869d609e44]);
  (771674624232514200, [0x7cef]);
  (772587872588841400, [0x83648477]);
  (775378751400549100, [0x80a4819a]);
  (775851565520143600, [0x53a85eda80c181059f619f84]);
  (776326625796003440, [0x96c9]);
  (776803953671269200, [0x8155]);
  (777283570897618500, [0x537f67f5680576f28317]);
  (777765499541213400, [0x90ca]);
  (778249761988792200, [0x4fa850d1]);
  (778736380953909500, [0x5e186ce37c3e7cd5929894ed]);
  (779225379483328700, [0x628068ad789f]);
  (779716780963571600, [0x6c61905990659685]);
  (780210609127629900, [0x969c9f959f9b]);
  (780706888061842700, [0x4f2f6eb49aef]);
  (781205642212946700, [0x6750]);
  (782717005993951400, [0x8c61]);
  (783225912944698600, [0x58fd5bff8a898b7d]);
  (783737423011375600, [0x7fb9]);
  (784251562961417500, [0x7c07]);
  (785810036063087300, [0x5ca9]);
  (787393182584755400, [0x6a596bcd]);
  (788462711496430200, [0x58307ff08116]);
  (789001796359917850, [0x8da399ff9a8f]);
  (789543803106851800, [0x4f0e68376a23]);
  (790636710160070800, [0x535a]);
  (791187675741167800, [0x5e96]);
  (791741693778729250, [0x745f]);
  (793422405610367400, [0x4f6350ad57e059ff5a745b308eaf8ec0]);
  (793988979363935150, [0x5892942e9570]);
  (795708219417972450, [0x8910]);
  (796287931186405000, [0x98719885]);
  (796871023217484350, [0x678469cb]);
  (797457535162724200, [0x58d15c7f5dbc]);
  (798047507375442900, [0x797f7984]);
  (798640980927424400, [0x57a2]);
  (799237997626074800, [0x6cbc]);
  (799838600032096000, [0x80f086df9057907a]);
  (801050736085330500, [0x781a786f]);
  (801662358787074100, [0x57c27b4f]);
  (802277745344512000, [0x93c3955e9d9a9e57]);
  (803519997344367600, [0x79c67a08]);
  (805412798332919500, [0x7bab7c2b874e880d]);
  (806051778142796700, [0x5bdd5be2]);
  (807342118626387300, [0x77e9814b9b139b22]);
  (809973849458124700, [0x7956]);
  (811994120189876700, [0x680868e79edb]);
  (812676716696916700, [0x7d20]);
  (813364004625692900, [0x82378eac]);
  (814056048910150300, [0x8f3b8f90984f989c]);
  (814752915841759600, [0x8b5c8c31926d94bd]);
  (815454673107624300, [0x7f30877697c1]);
  (816161389829933400, [0x663c665d7d007eaa80068de4922e94cc96469678]);
  (816873136606819900, [0x5e61]);
  (817589985554681100, [0x685081fc]);
  (818312010352029900, [0x99219985]);
  (819039286284937900, [0x53a257a35ec2]);
  (819771890294145100, [0x6813]);
  (820509901023907400, [0x578458df67b067cf]);
  (821253398872659300, [0x7c7d7e937f28914b]);
  (822002466045575000, [0x592b775b]);
  (822757186609113200, [0x91f7948d]);
  (823517646547635200, [0x990c9975]);
  (824283933822192200, [0x672d80ef9b44]);
  (825056138431583200, [0x8afe8bfa8fab8fae91f59497]);
  (825834352475788500, [0x7dd27eea]);
  (826618670221891200, [0x6cc99d069e29]);
  (827409188172602600, [0x7011]);
  (828206005137520200, [0x684575f975fa]);
  (829009222307246700, [0x82c78466851793769536]);
  (829818943330508500, [0x5e3774e3]);
  (830635274394424700, [0x51f07280]);
  (832288204589545800, [0x670b6b49]);
  (833125029556597400, [0x9ecd]);
  (834819985387974700, [0x75ab7965]);
  (836544166031425400, [0x6fa199a8]);
  (837417534028300800, [0x65e695cc9611]);
  (838298596996516200, [0x854a]);
  (839187491738240800, [0x5a7f773683c7]);
  (840084358736517000, [0x533b91ab]);
  (840989342288508700, [0x80eb811b9c3b9cd7]);
  (841902590644836000, [0x6b668abc8c0a]);
  (842824256155328300, [0x4faf53ec]);
  (843754495421559600, [0x566a]);
  (844693469456543700, [0x889c896a96f9]);
  (845641343851997900, [0x9d3f9e3d]);
  (848540097539323100, [0x7e3e7ee9]);
  (849525327183624400, [0x6027640f6ca5701d]);
  (850520360268941100, [0x8cc48d3f928394f3]);
  (851525393854291400, [0x5ab3811081cd]);
  (852540631000693000, [0x548e9903997a]);
  (853566281017412000, [0x9dd79e25]);
  (854602559720966700, [0x67d196cf96db]);
  (856707900640750000, [0x53955ec19b03]);
  (857777429552424700, [0x78d0]);
  (858858521162846200, [0x86e4947094a5]);
  (859951428216065300, [0x599e6daf]);
  (861056411834723800, [0x4e7e925e94ba]);
  (863303697419929600, [0x4e2755aa8c89]);
  (864446567002292000, [0x4ff3537176d2]);
  (865602649242399600, [0x99d29a799e9f]);
  (866772253218718600, [0x4e39]);
  (869153318088090500, [0x6da46ecc7b1b82368b208c239826988f]);
  (870365454141325000, [0x5b5592749451]);
  (871592463400506500, [0x535c74e4783a792a]);
  (872834715400362200, [0x51956001614b67da73ba74bd]);
  (874092593621048200, [0x72d07dac7ef6]);
  (876656836682381900, [0x60466052]);
  (877964044839117200, [0x728a72a2]);
  (879288567514119300, [0x5e3d]);
  (880630869547333400, [0x5c655e1a6a3d]);
  (881991434752911200, [0x693d]);
  (883370766966144800, [0x52a152d96a8075787bd9]);
  (886187854662814400, [0x5c905dc55dd46c5b972d9744]);
  (887626728408024400, [0x6d9588f38f338f8f]);
  (889086608350139700, [0x5b697ba97c6e7fce8559865e]);
  (890568116928653600, [0x6d2a8d138d4391d9948b9dfa9e6d]);
  (892071904665107800, [0x765678ec]);
  (893598651878186500, [0x76df7c0b]);
  (896723906228597100, [0x92d2950b]);
  (898323940363241200, [0x82b3]);
  (899949992450419200, [0x5fbd78278ca28d21]);
  (901602922645540200, [0x5e8476f9838a]);
  (903283634477178400, [0x5bc7]);
  (904993077813108300, [0x592d8f1d8f89]);
  (906732252084295400, [0x61be68177b77]);
  (910304060344503300, [0x5091677076ca96989d3b9e3f]);
  (912138974211322800, [0x69ce6b3d94a6]);
  (915913007009607600, [0x4ecb9b32]);
  (917854815595317700, [0x52fa72c49dc29e5e]);
  (919835078324935700, [0x4f26502b61556a2f6aa3819894ac]);
  (921855349056687600, [0x5e1c5e5f]);
  (923917277776961200, [0x6930840396b696b8]);
  (926022618696744500, [0x8cc28d429b23]);
  (928173239218840800, [0x7c417c5f7d22]);
  (930371129890718300, [0x5f716a316afb6cfd6fa496049b2e]);
  (934917367298394100, [0x69d07a1788fe]);
  (937270417039413500, [0x507f511f57d958645f0b95bd960d]);
  (939680172197319600, [0x5ff18882]);
  (942149433456356700, [0x6a716ae581c2971e]);
  (944681214254785800, [0x89da]);
  (947278762895111700, [0x4fa04fe076c57f94852c9993]);
  (949945587603327900, [0x8086]);
  (952685485022139400, [0x620896a7]);
  (955502572718809000, [0x513f5152]);
  (961386622721102300, [0x4e2b58587825]);
  (964463788587777600, [0x53495deb833583fd]);
  (967638658419235800, [0x4e1b53e2]);
  (970917640701534700, [0x6e146f01]);
  (974307795869102800, [0x696b]);
  (977816927850229900, [0x6168836b852d8ed28f69]);
  (981453692267317400, [0x5c517fbd]);
  (985227725065602100, [0x5b8778a3794891ec948e95d59619]);
  (989149796380930200, [0x743c74ca]);
  (993231995832955800, [0x55d3667678b3]);
  (997487957274835300, [0x69956e296eab72ee73459f20]);
  (1001933133531918700, [0x67ab69537bd37c0d861686179da99e5c]);
  (1006585135095408000, [0x4e1854f268426977750f]);
  (1011464151512351300, [0x57b87566]);
  (1016593480951106300, [0x93ac95509cf69e22]);
  (1022000203078134000, [0x7cb985aa]);
  (1027716044462128800, [0x51ef51f1584b5c6f6800689483148b2c8c2c92a594f1]);
  (1033778506643772100, [0x50e755bb65ec749e81c6925a94c6]);
  (1040232358757529200, [0x4e014e5455ac5c555e7b71d582cd84bc8944]);
  (1047131645906224400, [0x65af7c9f93989549]);
  (1054542443121596700, [0x576a57df58025baa5fe7618261b2]);
  (1062546713888950300, [0x541b58f369666bbc8160]);
  (1071247851587913200, [0x58a9810d81be832c914a]);
  (1080778869568345800, [0x517051b55c3e5cf0612461a46cc1862d]);
  (1091314921134128500, [0x53f6606f68546eaa8449]);
  (1103093224699766700, [0x573958d959d46bbf745e815482059a659aa5]);
  (1116446363962219000, [0x51465cb3679d6beb79497bc48303]);
  (1131861431944944800, [0x57a0597859e66982771a7b3c7c60]);
  (1150093587624340300, [0x6a816aa96d9b6fe4762482b988968c79934195289c099cc7]);
  (1172407942755761200, [0x52a353a65ec8679567c481e384698702927b94ec]);
  (1201176150000939400, [0x5cad5dba677568636a948247]);
  (1241722660811755800, [0x70897126721072627a007bee7c437dad7ef4826f83c5857e977697ad]);
  (1311037378867750300, [0x4e6051cc54b8575a58055ce15cfd5e055e2572677a917aaf7b0b7b4d7fd280e18cbf8d389f9c9f9f])
].
(** prob_emit.go:85329-85966 probEmit, state 427 *)
Definition emit_427 : list (Z * list Z) := [
  (267996585087057500, [0x738b]);
  (333623101402376900, [0x674e]);
  (343550929616627200, [0x54335434]);
  (347206411137652500, [0x54689031]);
  (383966840957398600, [0x6768694a]);
  (385174838840308540, [0x96489673]);
  (398494015197473900, [0x6bdb]);
  (402906268740330800, [0x6c5f]);
  (405689112638848500, [0x5b8b]);
  (409221415832165200, [0x52185289]);
  (415246082737768200, [0x4ed35009]);
  (422114784169754600, [0x5b595b6b]);
  (423539254839329000, [0x79e6]);
  (423927755716475100, [0x5c14723e]);
  (437008785967491300, [0x4e489ebc]);
  (455045923412931000, [0x5510]);
  (458836306767171000, [0x5bab5bae]);
  (458891509639122100, [0x80e1]);
  (460843063072251900, [0x666e]);
  (461464358490723700, [0x5e9c]);
  (469421426047382700, [0x8d758d99]);
  (469482794567258900, [0x6731]);
  (473682722387500400, [0x5ca9]);
  (476936099753515650, [0x4e01]);
  (477799605617203700, [0x5fe0]);
  (481192061195395200, [0x8881]);
  (487237271587122760, [0x9b4f]);
  (489461232779906600, [0x66f9]);
  (493359318965899800, [0x5f90]);
  (495805200261459100, [0x90d1912d]);
  (496687676907002700, [0x8cc88d3e]);
  (509753443134167400, [0x5f8b]);
  (511794330297288200, [0x5e84838a]);
  (513495694587833700, [0x6b66]);
  (514549849054880100, [0x5f8c]);
  (522570177630377400, [0x53ec]);
  (524148327164117800, [0x4e497fa9]);
  (527820446009715600, [0x535a]);
  (531976013036565500, [0x695a]);
  (532666464571219900, [0x60466052]);
  (533245504984690400, [0x968b]);
  (534179000678295600, [0x4f8d]);
  (534649036796328800, [0x4faf]);
  (538002644482220700, [0x71d5]);
  (538858918827209400, [0x6069]);
  (538981844472682400, [0x5cf08afe8bfa]);
  (539104921411295650, [0x65af]);
  (539351530660815000, [0x8521]);
  (541598816246020800, [0x4f2f]);
  (548525163332643300, [0x627f]);
  (551407998522641000, [0x537f]);
  (551966659193505000, [0x54155442]);
  (553235175146236600, [0x4e39]);
  (553946921923123000, [0x6717]);
  (557140226633423900, [0x80838085]);
  (557880422462990700, [0x5f6d]);
  (559679571442294850, [0x9d6c9e4f]);
  (559982601977212700, [0x5065]);
  (563221127092984500, [0x5a01]);
  (563377989870247100, [0x84b2]);
  (565760946153545500, [0x7956]);
  (567218461833842400, [0x90ed]);
  (567381727176230800, [0x8cab8d2f]);
  (569029210896581400, [0x4fca]);
  (575549530277657600, [0x7fbd]);
  (578976375961139040, [0x90939127]);
  (580269099411285000, [0x6676]);
  (581390606493299100, [0x9686]);
  (581956112241633500, [0x535c]);
  (584638265361089900, [0x6d2a]);
  (585027370910386500, [0x7dad7ef4]);
  (585222492923512700, [0x739b746a]);
  (586203855068345200, [0x8a79]);
  (588397362754970700, [0x8463]);
  (589818706479976300, [0x5ba3]);
  (590846464755800300, [0x5d07]);
  (591260544022403400, [0x9676]);
  (591676345037269800, [0x8ca28d21]);
  (599023060225457100, [0x7aa67ac7]);
  (600150467882778800, [0x4ea8]);
  (600377482736232800, [0x7bc48303]);
  (600605014119946400, [0x9075]);
  (601981182627214500, [0x8427856d]);
  (604554424023862300, [0x7d007eaa]);
  (604791672059225300, [0x8f1d8f89]);
  (605506812174987800, [0x82b3]);
  (606952620492510900, [0x4e18]);
  (607195633977840000, [0x6cfd6fa4]);
  (608666248716809600, [0x667a842885a99d3b9e3f]);
  (609409746565561300, [0x4e1b53e2]);
  (610158813738477200, [0x76ca]);
  (610409754899019700, [0x7518]);
  (612440281515094300, [0x7d397ecd]);
  (612697021065618850, [0x8f9b]);
  (614251456509398900, [0x7ae5]);
  (614775017914793400, [0x90a2]);
  (615301334919220800, [0x6b3d94a6]);
  (615565535865504700, [0x73ae744b]);
  (616096041088474100, [0x88d5]);
  (616629375686010300, [0x97cb97e6]);
  (617434749166719900, [0x68ee]);
  (617975291023410700, [0x7d22]);
  (618518770622006500, [0x58fd5bff]);
  (619339568663789400, [0x620e]);
  (621281377249499600, [0x4f1f5049]);
  (622408149734133800, [0x7fc1]);
  (623834707450016100, [0x946b]);
  (624700513724327500, [0x859b]);
  (626454944689418450, [0x6668]);
  (627046662392227300, [0x7f8c]);
  (627343839431143000, [0x50916770745c]);
  (628541458535814600, [0x4ff8]);
  (629753594589049100, [0x5b8f90b8]);
  (630672437194489700, [0x962e]);
  (631289723105197800, [0x5c095d14]);
  (632849817149445800, [0x51ef51f1]);
  (633480734068772300, [0x8ed28f69]);
  (634754636646515300, [0x7a4e9896]);
  (635397725679544300, [0x5e7a]);
  (635720827737688900, [0x7a3d]);
  (636370180668743800, [0x92d2950b]);
  (636696445232225400, [0x6c5d]);
  (638012253689976600, [0x5085]);
  (638676707961843350, [0x5eb7827e]);
  (639010598088394800, [0x90ac9114]);
  (639681741547193550, [0x5c39]);
  (640357419793481500, [0x9ea59ea6]);
  (640696978693595300, [0x4f26502b]);
  (641037694525756800, [0x51af99ae]);
  (641722628710314250, [0x5587]);
  (642412286616220300, [0x4e5455ac8c37]);
  (644157531611342900, [0x96c4]);
  (644864248333652150, [0x6bb7]);
  (645219488494088900, [0x5ed68c9e8d1e]);
  (645933777245326900, [0x675c]);
  (646292844058399750, [0x60e09633967d]);
  (647014868855748500, [0x5bc7]);
  (647377845660806400, [0x6885]);
  (647742144788656500, [0x6a80]);
  (648474748797863750, [0x6d69]);
  (648843073339493400, [0x88f4]);
  (649212759527626000, [0x83058fea]);
  (649956257376377800, [0x4e3d9e97]);
  (651081972828841200, [0x6f58]);
  (653372149257509700, [0x575a5805]);
  (655716006554711400, [0x7965]);
  (656112046676321100, [0x65bc6c88]);
  (656908863641238800, [0x5353]);
  (657309665780992700, [0x6641]);
  (658116121764665800, [0x59ec]);
  (658929134372990800, [0x79b9]);
  (660161182811794860, [0x723d]);
  (660991063093264300, [0x582f5c27]);
  (663522843891693400, [0x51b56cc192749451]);
  (663951110070893400, [0x621a]);
  (664381218260832450, [0x90b1]);
  (664813184375284100, [0x72c47c9f82d1]);
  (665682755072039500, [0x82fb]);
  (667890350241959500, [0x8212]);
  (670605449148554560, [0x7e697ef3]);
  (671065220073417600, [0x5dcd72d0]);
  (673396327960262200, [0x54f2]);
  (673869142079856900, [0x4ef2]);
  (674344202355716600, [0x51e45deb9cf3]);
  (674821530230982350, [0x90dd]);
  (675301147457331650, [0x6155]);
  (677242956043041800, [0x8b198c26]);
  (677734357523284700, [0x822a]);
  (678228185687343000, [0x5b87]);
  (678724464621555900, [0x7762]);
  (679724472955014200, [0x53625ba668666a3a76e7848b8523]);
  (680228252358009900, [0x595a]);
  (680734582553664600, [0x725f]);
  (681243489504411800, [0x797f798488d4]);
  (681754999571088850, [0x69d0]);
  (682269139521130600, [0x660c8d6b]);
  (682785936536974900, [0x5b5484df858a]);
  (683827612622800500, [0x4ecb]);
  (684352548211414800, [0x6d0b96d2]);
  (684880253921499300, [0x60556851]);
  (685944093742004850, [0x95d59619]);
  (686480288056143400, [0x5f1896cd]);
  (688106340143321400, [0x590d5bd2]);
  (689205252300880900, [0x840d9e1e9e3e]);
  (689759270338442500, [0x537167346a38]);
  (690316374843387950, [0x4f5f8861]);
  (690876600398254900, [0x5914]);
  (693149425506010500, [0x6a316afb891a]);
  (693725795977685600, [0x7267]);
  (694305507746118200, [0x4e306842826f8c50]);
  (694888599777197500, [0x8096]);
  (696658557487137600, [0x598d6b23]);
  (697255574185788000, [0x77eb77ef95bb960e]);
  (698460408037405400, [0x845b]);
  (699679935346787200, [0x66e6]);
  (701537573904080800, [0x6c838346834a96469678]);
  (704069354702509700, [0x84bf]);
  (706011163288219900, [0x6bc5]);
  (707326971745971000, [0x6c60]);
  (707991426017837900, [0x970d]);
  (709333728051052000, [0x8af68c0c]);
  (710011696749589800, [0x984f989c]);
  (711381581185406000, [0x51cc92b39510]);
  (712073625469863400, [0x4ea27cdc9655965d]);
  (712770492401472700, [0x835a83a2]);
  (713472249667337400, [0x620898219889]);
  (714178966389646700, [0x67ab6953]);
  (714890713166533050, [0x90b5]);
  (716329586911743000, [0x5baa61b2]);
  (717789466853858300, [0x6566]);
  (719270975432372300, [0x5189]);
  (724636246781604300, [0x59da]);
  (725426764732315600, [0x65ed]);
  (726223581697233400, [0x95ad95fe]);
  (727026798866959800, [0x5947]);
  (728652850954137850, [0x5b9382a68606958f95f0]);
  (729475900867789400, [0x538953b27fdf]);
  (730305781149258900, [0x5e9e9f90]);
  (731142606116310600, [0x660a]);
  (732837561947687900, [0x502a84fc943894ce]);
  (734561742591138400, [0x7fd48b5a8c2d959495f5]);
  (735435110588014000, [0x6d66]);
  (736316173556229450, [0x7a46]);
  (737205068297954000, [0x6d9b6fe4866290c19b31]);
  (738101935296230050, [0x958695eb]);
  (739006918848221900, [0x658c6ca37043]);
  (739920167204549100, [0x6817]);
  (741772071981272900, [0x594e67cf]);
  (742711046016256750, [0x75119b919c8d]);
  (745582056604499850, [0x88d8]);
  (746557674099036400, [0x55bb743c74ca]);
  (747542903743337600, [0x8b2c8c2c9f949f9a]);
  (748537936828654350, [0x8e47]);
  (749542970414004500, [0x83408b598c2f]);
  (750558207560406300, [0x81e7]);
  (751583857577125200, [0x8087865e9756]);
  (752620136280679800, [0x827d83bd]);
  (753667266267409400, [0x9146]);
  (754725477200463100, [0x5e9a]);
  (755795006112137900, [0x664f90cf90df937e953a]);
  (757969004775778500, [0x6ed5851a]);
  (759073988394436900, [0x4fa04fe07cb1857e99f19a86]);
  (760191318454249500, [0x4fde]);
  (761321273979642800, [0x5e055e256de674d274da82cd84bc9122]);
  (762464143562005100, [0x5bb4]);
  (763620225802112700, [0x749e803d]);
  (764789829778431900, [0x66566689]);
  (765973275543132100, [0x5b9b]);
  (767170894647803700, [0x6fee]);
  (769610039960219600, [0x51807426]);
  (770852291960075300, [0x6556]);
  (773384072758504300, [0x69ae8363]);
  (774674413242095100, [0x803f]);
  (775981621398830300, [0x711871fe]);
  (777306144073832400, [0x78ca7fa17fa8]);
  (780009011312624350, [0x97a0]);
  (781388343525857900, [0x4e93]);
  (782786967723331900, [0x7fe6]);
  (784205431222527600, [0x53f66a0a8449]);
  (787104184909852800, [0x54b8]);
  (788585693488366900, [0x6840747e794182cc8407]);
  (790089481224820900, [0x96ef]);
  (791616228437899800, [0x81fb8f9c]);
  (793166647091496300, [0x5ebe6d3d]);
  (794741482788310200, [0x741a]);
  (797967569010132400, [0x73b274337afa]);
  (799620499205253400, [0x5ffb940394d9]);
  (801301211036891600, [0x5be583c1]);
  (806519786353948500, [0x5c9a5d50]);
  (808321636904216400, [0x77bf82b990b99112]);
  (810156550771036000, [0x8042807680e5]);
  (812025764072251400, [0x68546ce0]);
  (813930583569320700, [0x535e9704]);
  (817852654884648800, [0x5170624865f766e07b2a862d]);
  (819872925616400700, [0x5a045a4169776bb3859c921594ae]);
  (821934854336674400, [0x614e7504]);
  (824040195256457700, [0x4e5c831c]);
  (826190815778554000, [0x5c9191e7948f]);
  (828388706450431500, [0x82a9]);
  (830635992035637300, [0x6c6a7126746983b98cc18d32902f]);
  (835287993599126600, [0x5321]);
  (837697748757032700, [0x4fce5f2d]);
  (840167010016069900, [0x4f0d]);
  (842698790814498900, [0x67727e467f2a83399e7f]);
  (845296339454824900, [0x4ec95de9978f]);
  (847963164163041000, [0x81ec]);
  (850703061581852500, [0x749097f6]);
  (853520149278522100, [0x6ea5]);
  (856418902965847400, [0x709c71529716]);
  (865656234978948900, [0x52b152f57b807c21]);
  (868935217261248000, [0x840c]);
  (872325372428816200, [0x82ae8398]);
  (875834504409943000, [0x4edd]);
  (879471268827030500, [0x4f58]);
  (883245301625315300, [0x749c]);
  (887167372940643300, [0x7166]);
  (891249572392668900, [0x5ce55d227fbf]);
  (895505533834548500, [0x6222]);
  (899950710091631800, [0x59cd59d7607d60f270e871c1]);
  (904602711655121200, [0x9eb4]);
  (909481728072064400, [0x8ce18d5390c49697]);
  (914611057510819400, [0x6e5b909d913a]);
  (920017779637847000, [0x502950885459696e9a659aa5]);
  (925733621021842000, [0x90b0]);
  (931796083203485300, [0x5d4790c79773]);
  (938249935317242400, [0x9375952e]);
  (945149222465937600, [0x51bc5eb99e1d9e42]);
  (952560019681309800, [0x83c584af853a85fa8a3e920494ad]);
  (960564290448663400, [0x661d683e6b1274a9830c]);
  (969265428147626400, [0x9004]);
  (978796446128059000, [0x69606cee772d8306]);
  (989332497693841600, [0x90e69148]);
  (1001110801259479800, [0x4f0990dc95de961a9a4a9a85]);
  (1014463940521932100, [0x4ef552015b6382df]);
  (1029879008504658000, [0x52c7536b67ef6f8e7da6885b89838fee]);
  (1048111164184053500, [0x837b94149561]);
  (1070425519315474400, [0x5bbe6bd57562848985628cd390b4]);
  (1099193726560652500, [0x4fa850d173c984ec8d1b8d63]);
  (1139740237371468900, [0x6bcb846b99529976]);
  (1209054955427463400, [0x4e604ec7763377db7b267fd290d7971e97d397e99b6f9c81])
].
(** prob_emit.go:85967-85967 probEmit, state 428 *)
Definition emit_428 : list (Z * list Z) := [].
(** prob_emit.go:85968-85968 probEmit, state 429 *)
Definition emit_429 : list (Z * list Z) := [].
(** prob_emit.go:85969-85969 probEmit, state 430 *)
Definition emit_430 : list (Z * list Z) := [].
(** prob_emit.go:85970-85977 probEmit, state 431 *)
Definition emit_431 : list (Z * list Z) := [
  (42028019389330500, [0x4e497fa9]);
  (179175946922805500, [0x5510]);
  (232238772029022500, [0x9004]);
  (283321334405621600, [0x90b99112]);
  (393182563272432570, [0x9676])
].
(** prob_emit.go:85978-85979 probEmit, state 432 *)
Definition emit_432 : list (Z * list Z) := [
  (0, [0x5b8f])
].
(** prob_emit.go:85980-86046 probEmit, state 433 *)
Definition emit_433 : list (Z * list Z) := [
  (230160582084136320, [0x545c55da]);
  (268448932425281800, [0x556a]);
  (277455014817099900, [0x560e]);
  (291483578786108580, [0x5431]);
  (302623861797487460, [0x563b]);
  (323933183343558300, [0x7830]);
  (324770008310610000, [0x53ed]);
  (325191061564244330, [0x549a]);
  (326038524263341540, [0x562456b6]);
  (337286322606010600, [0x54d25660]);
  (353818720648548930, [0x5657]);
  (357830720027491460, [0x5495]);
  (375015745720157370, [0x55e1]);
  (382962162855582070, [0x549d565d]);
  (386015835241590200, [0x55d255f5]);
  (386794049285795700, [0x54e7]);
  (390778640140515700, [0x5494]);
  (396638056567121000, [0x5693]);
  (398377230838307870, [0x55d6]);
  (401044055546524000, [0x4e536a50]);
  (401949039098515800, [0x54d0]);
  (405653166266550700, [0x5623]);
  (411480057078948300, [0x561f]);
  (420911125026072400, [0x53fd5630]);
  (428915395793426100, [0x6886]);
  (432552160210513600, [0x54a35654]);
  (453031601475114900, [0x54ad562d]);
  (471263757154510400, [0x55b3]);
  (480794775134942800, [0x93d89535]);
  (493578112285931300, [0x564c]);
  (508238459705118800, [0x55947809]);
  (510905284413335000, [0x54a97f8b828898bc98d5]);
  (513645181832146400, [0x93dc9557]);
  (528598355229242860, [0x55b5]);
  (531877337511541900, [0x55675616]);
  (542413389077324600, [0x93d794ff]);
  (554191692642962900, [0x5580]);
  (567544831905415100, [0x943a94db]);
  (582959899888140900, [0x54de]);
  (641738566378352900, [0x54d75629]);
  (711053284434347400, [0x6026]);
  (733367639565768400, [0x54e65636]);
  (762135846810946500, [0x6bb7]);
  (871997075677757400, [0x54017c72])
].
(** prob_emit.go:86047-86093 probEmit, state 434 *)
Definition emit_434 : list (Z * list Z) := [
  (130428395053910130, [0x5728]);
  (210521550714896980, [0x4e3a70ba]);
  (263217171751386840, [0x5bf95c0d]);
  (276784359358773500, [0x4e0e8207]);
  (294585148531898700, [0x4ee5]);
  (305853410045985850, [0x4ece5f9e]);
  (310040796449630650, [0x4e8e65bc]);
  (318288735547446460, [0x628a]);
  (326629142695722500, [0x88ab]);
  (359460745502285100, [0x7528]);
  (368621174072909100, [0x7531]);
  (370778452180177930, [0x7d667ed9]);
  (371320854424505860, [0x5411]);
  (385836768961264500, [0x81f3]);
  (424237939239425800, [0x5f537576]);
  (426974386633569200, [0x6bd4]);
  (429560514725629400, [0x56e0]);
  (433942992816762700, [0x81ea]);
  (435766079862026900, [0x540c]);
  (476768936051524000, [0x6309]);
  (479091986692291450, [0x636e64da]);
  (481155258929758700, [0x7d937ecf]);
  (494442587067756000, [0x8ddf]);
  (494844395744970700, [0x5f80]);
  (503742460530083600, [0x9664]);
  (529717013240698800, [0x671d]);
  (621936269666725000, [0x66ff]);
  (641668408290166250, [0x6cbf]);
  (654554426757210200, [0x51ed6191]);
  (656014915892662100, [0x8ddd]);
  (867859285840972600, [0x9776]);
  (906672651016625200, [0x4e4e]);
  (959838622083508300, [0x8d81]);
  (1020745028418448700, [0x7e47]);
  (1225514312754974400, [0x7de37f18])
].
(** prob_emit.go:86094-86413 probEmit, state 435 *)
Definition emit_435 : list (Z * list Z) := [
  (243567021920195600, [0x9053]);
  (258220249198876000, [0x80a1]);
  (264704563246331140, [0x4e2a500b]);
  (272661955495487040, [0x5e74]);
  (331336917558114200, [0x5bb6]);
  (344338916026800100, [0x5929]);
  (348327222985256000, [0x5206]);
  (366337217705694540, [0x70b99ede]);
  (383902013872244650, [0x7c7b985e]);
  (385390095308146500, [0x4e9b]);
  (389923773329396700, [0x7c73]);
  (395534781191438200, [0x53e3]);
  (397417801718521750, [0x540d]);
  (400370006311845650, [0x5f205f35]);
  (408033233191349000, [0x76d876e4]);
  (409231555801518100, [0x65b9]);
  (411128647832669700, [0x90e8]);
  (422333436531913900, [0x58f08072]);
  (423090810993467100, [0x5143]);
  (432687014483296650, [0x79cd7a2e]);
  (434740226707596100, [0x671f]);
  (436665288080481900, [0x4f4d]);
  (448468863071077100, [0x53f7865f]);
  (455819109270369700, [0x53f0]);
  (464736196459393600, [0x6761689d]);
  (467639794697206100, [0x5c01]);
  (468384399775613950, [0x6b21]);
  (476614921029183900, [0x5ea7]);
  (477406359052286400, [0x7fa4]);
  (480034662350647900, [0x7d1a7ea7]);
  (480443365888664250, [0x5c425c64]);
  (480926341954291700, [0x54285678]);
  (485761794876753800, [0x5ea6]);
  (489620877903788700, [0x6bb5]);
  (503780763327546200, [0x96c6]);
  (503811190834246900, [0x4ee3]);
  (506057784782382300, [0x7247]);
  (509605828783923300, [0x573a5834]);
  (516929843038021450, [0x8f2a8f6e]);
  (520389418548537100, [0x62366237]);
  (521509170179707400, [0x652f]);
  (521909534681742200, [0x6279]);
  (523787005621277600, [0x53e5]);
  (524645379990416800, [0x6839]);
  (526041892589938900, [0x514b]);
  (528777566946607400, [0x5757584a]);
  (534857120432481000, [0x5957]);
  (541463295500290300, [0x4ef6]);
  (542443695509952400, [0x5b97]);
  (543298209367109900, [0x4efd]);
  (546604295593198800, [0x5802]);
  (551043105870078200, [0x6b65]);
  (553363624706451600, [0x66f2]);
  (558120338321393400, [0x5377]);
  (565793396374209300, [0x67b6]);
  (569892094170545500, [0x7d447ec4]);
  (570601736415322000, [0x7897]);
  (573797667141562950, [0x5e105e33]);
  (576028242892992700, [0x7b147b46]);
  (579017336652281300, [0x89d2]);
  (586313981436963500, [0x7ae0]);
  (587150806404015200, [0x756a]);
  (589776001501623900, [0x98059879]);
  (595394626232781650, [0x68376a23]);
  (596618819026908200, [0x7bc7]);
  (596927223280604300, [0x545854e1]);
  (597236581609303900, [0x5c0a]);
  (598014190504294700, [0x9813987f]);
  (613794222395775500, [0x62478154]);
  (617994559854338500, [0x500d]);
  (619241578412025300, [0x5c816b72]);
  (623380100028310750, [0x679d]);
  (626964713205624300, [0x5e2d]);
  (629178825793345700, [0x676f]);
  (633092368687705800, [0x5e16]);
  (633648234488088600, [0x5e55]);
  (637165329837724700, [0x904d]);
  (637976928495542600, [0x5e45]);
  (644469592952111800, [0x7bb1]);
  (648525915835225900, [0x888b]);
  (649435603719909000, [0x4f195925]);
  (649566237311314600, [0x80ce]);
  (650882045769065700, [0x6746687f]);
  (651546500040932600, [0x4e1d7d72]);
  (651813522896520400, [0x98469897]);
  (652888802074146700, [0x83b1840a]);
  (655212898478091700, [0x79d2]);
  (657027323690432000, [0x6876]);
  (660174936900633800, [0x7c92]);
  (664937741799559200, [0x8258]);
  (665090297130443000, [0x76cf76de]);
  (666319191243878100, [0x5708]);
  (677251010339921700, [0x58f658fa]);
  (679517890321192900, [0x5339]);
  (686077618569774300, [0x4ea9755d]);
  (686266120039351400, [0x518a518c]);
  (686644192323342000, [0x8f1b8f86]);
  (687023699420197200, [0x68f5]);
  (692493812991502900, [0x8f2f8f91]);
  (694932958303918800, [0x682a]);
  (697433088524460500, [0x65a4]);
  (700431171745654100, [0x78f4]);
  (703521925491961750, [0x4e08]);
  (705331929656323500, [0x7b52]);
  (713660164499299800, [0x76fe]);
  (714407365983169900, [0x5de1]);
  (714657679004981800, [0x7f50]);
  (714908620165524400, [0x679a]);
  (716172859507042100, [0x76d2]);
  (716683064695431600, [0x76c6]);
  (720861218096927100, [0x5c3a]);
  (722745526877075050, [0x6708]);
  (723017635888511100, [0x98019875]);
  (723838433930294100, [0x52425291]);
  (724389399511391000, [0x53a25ec2]);
  (725500522053898140, [0x81088109]);
  (726342041746426600, [0x5398]);
  (732140767511461500, [0x7a74]);
  (734557803604242800, [0x921e94a7]);
  (736721721114590900, [0x5e62]);
  (739574529476044800, [0x65cf]);
  (743175573228348100, [0x7fbd]);
  (744180606813698200, [0x74e3]);
  (750791709324904500, [0x4e18]);
  (752973614064368400, [0x93c894fe]);
  (753711624794130700, [0x8d9f]);
  (755204189815798300, [0x7a0b]);
  (756338417476191700, [0x4e38]);
  (757101779961698800, [0x7dad7ef4]);
  (757871014524014350, [0x5e187c3e]);
  (758257862201806400, [0x52fa]);
  (761407728907743500, [0x5e275e40]);
  (761808531047497400, [0x672d]);
  (765074127344902700, [0x5f6a6735]);
  (766326753326820700, [0x5cf068696a01]);
  (767170640191407100, [0x675f]);
  (768021709158198000, [0x575b58c7]);
  (770619257798524100, [0x5c465c4a]);
  (776956219191783000, [0x5bf8]);
  (781252822780127300, [0x5b8b5c3e]);
  (783722084039164500, [0x62c564d4]);
  (784223338221518950, [0x938a9551]);
  (785233447820169300, [0x7e377f15]);
  (790442959008509500, [0x54e8]);
  (798804373012622800, [0x832c]);
  (799973976988942000, [0x6d32]);
  (802959273303910000, [0x7c07]);
  (804178800613291900, [0x76c5]);
  (806036439170585500, [0x65ec]);
  (806663400471945000, [0x68636a94]);
  (809211309002043500, [0x7db97efa9f619f84]);
  (815193158523134500, [0x6c93]);
  (817971114933842000, [0x789f]);
  (818677831656151300, [0x9320952d]);
  (820828452178247800, [0x6beb]);
  (821555728111155800, [0x58c1]);
  (823026342850125100, [0x5806]);
  (826034088373853000, [0x664c]);
  (830722446963738100, [0x78c5]);
  (835641471382815300, [0x680b68df8d6b]);
  (839060607857643000, [0x659b]);
  (840815038822734100, [0x5b635bbf]);
  (841703933564458700, [0x9370953e]);
  (845340697981546200, [0x4e47]);
  (847209911282761400, [0x531d]);
  (853036802095159000, [0x70b7]);
  (859224342466967700, [0x4e1b53e2]);
  (861374962989064100, [0x95d59619]);
  (863572853660941700, [0x65e6]);
  (864690183720754200, [0x723f7de17f17]);
  (871669759914308400, [0x64ae]);
  (880480486665335000, [0x69796cd3]);
  (881805009340337200, [0x54e9]);
  (890143170234242300, [0x82af]);
  (893084558754871500, [0x57c3]);
  (894588346491325700, [0x7566]);
  (896115093704404400, [0x93b09552]);
  (897665512358001000, [0x684c]);
  (905800076303396300, [0x98039877]);
  (907509519639326200, [0x82a5]);
  (909248693910513000, [0x6c60]);
  (911018651620453200, [0x68ad]);
  (912820502170721100, [0x7bee7c43]);
  (918429448835825500, [0x95cb9615]);
  (935134857302142000, [0x6e7e6ef47063]);
  (952462029429545800, [0x5e1c5e5f6e9c]);
  (963903064547320200, [0x546855d39031]);
  (970155100245453500, [0x7bd37c0d]);
  (976824237695320700, [0x5768]);
  (980333369676447800, [0x5e19]);
  (983970134093535300, [0x56ed57127548]);
  (987744166891820000, [0x4ede]);
  (995748437659173600, [0x9776]);
  (1004449575358136600, [0x68af]);
  (1013980593338569100, [0x684676ee]);
  (1024516644904351600, [0x4f0f645e]);
  (1030232486288346500, [0x5eb9]);
  (1036294948469990000, [0x6a18780178bc]);
  (1042748800583747100, [0x58a97e467f2a8ef88f749318952499d59a7e]);
  (1049648087732442300, [0x579b]);
  (1065063155715168200, [0x7a9784ec8538]);
  (1105609666525984600, [0x728b7d5e7ede929694e29762]);
  (1118962805788436800, [0x53f66c6a8449]);
  (1134377873771162700, [0x6487]);
  (1174924384581979100, [0x4fa75074520067f16980]);
  (1203692591827157300, [0x77a57b50]);
  (1244239102637973600, [0x4e32536657a7622a74e6]);
  (1313553820693968200, [0x74e2])
].
(** prob_emit.go:86414-86414 probEmit, state 436 *)
Definition emit_436 : list (Z * list Z) := [].
(** prob_emit.go:86415-86416 probEmit, state 437 *)
Definition emit_437 : list (Z * list Z) := [
  (0, [0x79e9])
].
(** prob_emit.go:86417-86458 probEmit, state 438 *)
Definition emit_438 : list (Z * list Z) := [
  (151510264957049200, [0x4ed6]);
  (179333184313317500, [0x6211]);
  (200226439823783140, [0x8fd99019]);
  (219480057092836980, [0x4f60]);
  (265027322735067370, [0x5979]);
  (292741676125508400, [0x90a3]);
  (300641557796787050, [0x5176]);
  (334947073183551860, [0x5b83]);
  (375712347671972640, [0x6b64]);
  (379372275746265330, [0x8a728be5]);
  (391913499403198100, [0x5404]);
  (431174502823147500, [0x8ab08c01]);
  (436438131115140000, [0x672c]);
  (441290273328614500, [0x6bcf]);
  (446494279672792300, [0x53e6]);
  (519866432528545450, [0x54ea]);
  (529372357455439900, [0x60a8]);
  (540575043970380600, [0x67d0]);
  (549165856948223200, [0x8af88bf8]);
  (558097642297530900, [0x54b1]);
  (581286333397265700, [0x5565]);
  (581379140828521000, [0x4f55]);
  (590953498437530300, [0x543e]);
  (606909308267793400, [0x600e]);
  (617077590183173900, [0x4ffa]);
  (634630940417469400, [0x7136]);
  (661295271053942600, [0x548b]);
  (700576591454434600, [0x5df1]);
  (703682431156431850, [0x5f7c]);
  (718503403385141050, [0x6c5d]);
  (721725491286257400, [0x65af]);
  (816423859113613500, [0x655d]);
  (826671726041907100, [0x53a5]);
  (852370034598204600, [0x5b70]);
  (1033899031262029500, [0x504c]);
  (1100396661621354400, [0x516c]);
  (1389433837410971000, [0x7109])
].
(** prob_emit.go:86459-86463 probEmit, state 439 *)
Definition emit_439 : list (Z * list Z) := [
  (55994565763988180, [0x65af]);
  (84993986985004230, [0x51798332]);
  (663068338564237200, [0x6c5d])
].
(** prob_emit.go:86464-86464 probEmit, state 440 *)
Definition emit_440 : list (Z * list Z) := [].
(** prob_emit.go:86465-86465 probEmit, state 441 *)
Definition emit_441 : list (Z * list Z) := [].
(** prob_emit.go:86466-86466 probEmit, state 442 *)
Definition emit_442 : list (Z * list Z) := [].
(** prob_emit.go:86467-86469 probEmit, state 443 *)
Definition emit_443 : list (Z * list Z) := [
  (37729423114146804, [0x865e]);
  (115745278869104300, [0x8700])
].
(** prob_emit.go:86470-86495 probEmit, state 444 *)
Definition emit_444 : list (Z * list Z) := [
  (82036371232579340, [0x4eca]);
  (205406491189617000, [0x73b073fe]);
  (226702579095755900, [0x665a]);
  (251364135729976400, [0x6625]);
  (267588091816881860, [0x590f]);
  (294242742903003230, [0x591c]);
  (347537496988329360, [0x79cb]);
  (350279424967067800, [0x51ac]);
  (403718614838215200, [0x5348]);
  (474583751547806300, [0x5510]);
  (490651989716853600, [0x6614]);
  (491573655227346000, [0x66ae]);
  (500950471172596950, [0x6628]);
  (546537145121120300, [0x5915]);
  (567259954721951300, [0x5b8b]);
  (582894561761020750, [0x664c]);
  (597798119677069500, [0x5bb5]);
  (650682532603936400, [0x6691]);
  (661894262416007000, [0x6668]);
  (813153071060425200, [0x660f]);
  (890472059883773400, [0x968b]);
  (931018570694590000, [0x9b4f]);
  (1000333288750584300, [0x663c665d])
].
(** prob_emit.go:86496-86507 probEmit, state 445 *)
Definition emit_445 : list (Z * list Z) := [
  (65677440348674790, [0x7b49]);
  (130259026258256940, [0x4e4b]);
  (185020464099447970, [0x6240]);
  (304822064436947930, [0x8fde9023]);
  (534081120663852900, [0x822c]);
  (853397466837824000, [0x55bd560d]);
  (1138660609829155800, [0x68376a23]);
  (1248521838695966800, [0x60df])
].
(** prob_emit.go:86508-86509 probEmit, state 446 *)
Definition emit_446 : list (Z * list Z) := [
  (0, [0x5f97])
].
(** prob_emit.go:86510-86512 probEmit, state 447 *)
Definition emit_447 : list (Z * list Z) := [
  (0, [0x8fc7904e])
].
(** prob_emit.go:86513-86514 probEmit, state 448 *)
Definition emit_448 : list (Z * list Z) := [
  (0, [0x7684])
].
(** prob_emit.go:86515-86516 probEmit, state 449 *)
Definition emit_449 : list (Z * list Z) := [
  (0, [0x4e86])
].
(** prob_emit.go:86517-86518 probEmit, state 450 *)
Definition emit_450 : list (Z * list Z) := [
  (0, [0x5730])
].
(** prob_emit.go:86519-86521 probEmit, state 451 *)
Definition emit_451 : list (Z * list Z) := [
  (0, [0x77408457])
].
(** prob_emit.go:86522-88229 probEmit, state 452 *)
Definition emit_452 : list (Z * list Z) := [
  (215524714442661700, [0x662f]);
  (270899077791164200, [0x6709]);
  (329513849395815540, [0x8aaa8bf4]);
  (348988488106957770, [0x5230]);
  (373014218924507700, [0x4f866765]);
  (385551391693143670, [0x8981]);
  (404579029600853900, [0x53bb]);
  (408414368520456100, [0x4f1a6703]);
  (413052339699237000, [0x53ef]);
  (427492185674733700, [0x80fd]);
  (438470682392168600, [0x770b]);
  (441875397712525700, [0x51fa]);
  (464708927000534200, [0x4f7f]);
  (473338226558948600, [0x8d77]);
  (473745594154255800, [0x8d70]);
  (474513186080304400, [0x60f3]);
  (479624069258224200, [0x5982]);
  (480103862370547850, [0x898b89c1]);
  (481423647176332200, [0x8b938ba9]);
  (489410588512448700, [0x505a]);
  (499870833981359650, [0x6210]);
  (511198476623004400, [0x5373]);
  (516932517577638000, [0x79f07a31]);
  (517025534659622100, [0x554f95ee]);
  (518202333476930500, [0x542c807d]);
  (521734528188787000, [0x65e07121]);
  (522926103232250600, [0x53eb]);
  (528354503594284600, [0x5f00958b]);
  (528976814118300200, [0x4f545360]);
  (529026766664421100, [0x50cf]);
  (529653288023136600, [0x8fbe9054]);
  (533241461167265700, [0x5403]);
  (538714798023245300, [0x6253]);
  (540206659427720400, [0x4f4f]);
  (542250081172033400, [0x7b11]);
  (543126450729720700, [0x5e265e36]);
  (543610880742815450, [0x53d7]);
  (544155778039098500, [0x6b7b]);
  (547555153620669800, [0x5e9461c9]);
  (549002830255673700, [0x884c]);
  (549953028975766600, [0x5c5e5c6c]);
  (550626681904964500, [0x56de]);
  (554624684310276450, [0x4f5c]);
  (555538880063571300, [0x8fdb9032]);
  (569129574576149600, [0x751f]);
  (572993760842404700, [0x5012]);
  (574022768986632000, [0x8acb8bf7]);
  (578477206119017100, [0x4efb]);
  (579946243018619300, [0x627e]);
  (580421263704324200, [0x7ad9]);
  (580974121537364900, [0x5165]);
  (587642679690151200, [0x53d1767c]);
  (588101664431486200, [0x62ff]);
  (591589536334128600, [0x6307]);
  (594913363342318400, [0x5e725e79]);
  (601839553629530400, [0x6da86f32]);
  (604982714568381000, [0x8dd1]);
  (608769891857500000, [0x6d3e]);
  (608947511797625600, [0x5750]);
  (611035832889268000, [0x5b9a]);
  (611240262261996000, [0x6536]);
  (611753171575878100, [0x67406bba]);
  (611913281399651800, [0x653e]);
  (612085112589190050, [0x7cfb]);
  (612108045739158700, [0x51995beb]);
  (612268725218236900, [0x5b665b78]);
  (612303190150509800, [0x4e708cb7]);
  (614416599046665600, [0x62c9]);
  (614828194853234200, [0x611b7231]);
  (619805067288172600, [0x6d41]);
  (621478642005343000, [0x53d88b8a]);
  (622720579144233500, [0x589e]);
  (623014302617009800, [0x52a852d5]);
  (624353320949735100, [0x53cd]);
  (624457068851661900, [0x9001]);
  (624729920316982300, [0x6539]);
  (625382578944897400, [0x8b1b8bb2]);
  (625828832474541800, [0x7ba1]);
  (626052708251197900, [0x82b1]);
  (628508456909714600, [0x6301]);
  (631637571816817800, [0x7a7f]);
  (631930765744126200, [0x8a2d8bbe]);
  (632421340699534100, [0x671b]);
  (633765161756623500, [0x5236]);
  (634179004659074500, [0x7387]);
  (634608927935206500, [0x8f498f6c]);
  (638012455165583900, [0x4ee4]);
  (638533871616933900, [0x5b89]);
  (639403964114868700, [0x6295]);
  (641059907765066900, [0x5efa]);
  (641366750595568400, [0x6015]);
  (641505137640026300, [0x8dcc]);
  (642076082791016840, [0x63d0]);
  (642292969010814800, [0x53568ce3]);
  (642821659404151200, [0x6025]);
  (644155744951930700, [0x5b8c]);
  (644805664018557000, [0x79bb96e2]);
  (644885212189166500, [0x737283b7]);
  (645140192406993700, [0x9700]);
  (646231170659269250, [0x968f96a8]);
  (646570510081608500, [0x52a0]);
  (646911004938340200, [0x80cc]);
  (648070864383769600, [0x529e8fa6]);
  (648763365090198200, [0x53d6]);
  (649310857125545000, [0x5448]);
  (649861363145072900, [0x77e57834]);
  (651820885302377500, [0x901a]);
  (653229601262818900, [0x505c]);
  (654168248863655100, [0x4f2050b3]);
  (654922043299749000, [0x5fd9]);
  (656572040814546700, [0x5347]);
  (656822802185425200, [0x964d]);
  (656876618672507550, [0x8df3]);
  (658013507214765200, [0x98189886]);
  (658031657682189600, [0x9760]);
  (660011557370172050, [0x5c45]);
  (660419721202136940, [0x7acb]);
  (661091240233684100, [0x8ad68bba]);
  (661184864433014200, [0x63a5]);
  (661372376207438700, [0x5408]);
  (662088144944226700, [0x6559]);
  (663056905488639300, [0x53165c3d76e1]);
  (663842575909317700, [0x5e73]);
  (664035142885827800, [0x54ed]);
  (664615078785332200, [0x7f6e]);
  (665139912335264800, [0x4ea77522]);
  (666257023413538450, [0x5f85]);
  (666909522021198150, [0x7b97]);
  (670586703988870900, [0x8a188bb0]);
  (671330355422564000, [0x8d85]);
  (672037807395200300, [0x6562]);
  (672204996566850900, [0x532f6c47]);
  (672246837571645400, [0x6389]);
  (674233377962209000, [0x843d]);
  (676434588978548850, [0x9000]);
  (676500069718638100, [0x51b2885d]);
  (677333225162910900, [0x4fdd]);
  (677929450844352650, [0x542b]);
  (678195585399304100, [0x517c]);
  (678284454545344000, [0x7f627f77]);
  (678306684177535150, [0x8abf8c03]);
  (678395652154933800, [0x88c588dd]);
  (679514482353509100, [0x7761]);
  (679717207955093200, [0x6cbb]);
  (680169186125655100, [0x517395dc]);
  (680418647645204200, [0x63a8]);
  (680965097092412000, [0x4f9b]);
  (681170787943129800, [0x90099078]);
  (682785214151087600, [0x753b756b]);
  (683719582079470000, [0x5f15]);
  (685256800477842450, [0x636263db]);
  (685734584473213700, [0x65ad65b7]);
  (685974335247369500, [0x5f526b78]);
  (685998341969366900, [0x5f04]);
  (686190603504197500, [0x7559]);
  (686552093233908240, [0x98db98de]);
  (688971270465384100, [0x4ea4]);
  (689417478444194800, [0x5192]);
  (689616433993533000, [0x613f9858]);
  (689965561530203900, [0x4eb289aa]);
  (690065536544779300, [0x8457]);
  (692444191202082600, [0x59d3]);
  (695538964252534400, [0x7f759a82]);
  (697809664190845600, [0x6302639b]);
  (697971914091231000, [0x558a]);
  (698433056913034540, [0x8ac78c08]);
  (698950980927540500, [0x60ca9a5a]);
  (699060360211073300, [0x4e3e8209]);
  (699169859263897600, [0x98df]);
  (699224653785816500, [0x5b88]);
  (700659953059898800, [0x7aef]);
  (701189571022594700, [0x4e43]);
  (701750110606883100, [0x98029876]);
  (703136859871139650, [0x68116a39]);
  (704485323855845700, [0x62dc]);
  (704658784437066550, [0x6563]);
  (705384793143616200, [0x559c]);
  (706380700613402800, [0x538b58d3]);
  (707535413665712550, [0x89e3]);
  (709035591815103050, [0x8a088ba1]);
  (709642021811854100, [0x641e]);
  (709794205679302000, [0x5f395f48]);
  (710007652932165200, [0x8ddf]);
  (711514678224265000, [0x6551]);
  (712323643432474900, [0x6c42]);
  (712448682523477000, [0x5531]);
  (712573878157983000, [0x99d09a7b]);
  (712824740628834900, [0x9650]);
  (714790561701153300, [0x4eae]);
  (714982869452727500, [0x9a0e9a91]);
  (715079162190066900, [0x594f]);
  (716795803534920000, [0x4f9d]);
  (717057498155973400, [0x7167]);
  (717090258189026500, [0x501f]);
  (717123028957794250, [0x54cd97ff]);
  (717221405748807500, [0x62b1]);
  (717319879415061500, [0x6e296eab]);
  (718376343516431100, [0x7ffb]);
  (718475961655169100, [0x62df64ec]);
  (719578361327883500, [0x8d768d95]);
  (719948545159673400, [0x95f99b27]);
  (720049742672104600, [0x6e38904a]);
  (720218633102386700, [0x5fd8]);
  (720489452496074600, [0x8d74]);
  (720965158456020600, [0x805e95fb]);
  (722129954085047900, [0x6293]);
  (722440566931847700, [0x663e986f]);
  (722475139101595700, [0x8fd0904b]);
  (722821519773514400, [0x5439]);
  (723413134514577200, [0x76d684cb]);
  (723867919276042600, [0x6234]);
  (724712994727814850, [0x5b58]);
  (725600942312982400, [0x5305]);
  (725708027813131600, [0x8fce]);
  (726785237511322800, [0x62cd]);
  (726857465755705200, [0x5c04]);
  (727219391594136500, [0x4f2450b7]);
  (727291934216106300, [0x914d]);
  (727947196844621750, [0x653b]);
  (728129978836654400, [0x5e2e5e6b]);
  (728386436203813400, [0x6478]);
  (729753031802574700, [0x8ca08d1f]);
  (730125610475000400, [0x4fa75074]);
  (730387243963807500, [0x5217]);
  (730424676118465100, [0x9003]);
  (732352537753946900, [0x644664fa]);
  (732390712978690050, [0x5949]);
  (732926702010714500, [0x8ffd]);
  (733118825028503900, [0x8cfa8d5a]);
  (733697418735208300, [0x70e771d2]);
  (734085016119677600, [0x73af74b0]);
  (734630188809508700, [0x886588dc]);
  (735650605826932850, [0x6ec5706d]);
  (735808521374948800, [0x529d52f8]);
  (735848039257304600, [0x6297]);
  (735966686690641800, [0x8f448f96]);
  (736085475063350800, [0x65979b25]);
  (736244079378914300, [0x732e737b]);
  (736721407254180100, [0x677e]);
  (736801183883859900, [0x544a]);
  (736960928326775560, [0x722c8b808bfb]);
  (737281184805463050, [0x812b8131]);
  (737562253049120700, [0x8fc19077]);
  (737642703576388300, [0x670d]);
  (737965154480525200, [0x6392]);
  (738694493207841950, [0x5954]);
  (739470165600736400, [0x9020]);
  (739511157607869100, [0x6068]);
  (740086817092302900, [0x7de87f16]);
  (740458641523990700, [0x4fee]);
  (741081437807335900, [0x64cd]);
  (741331646444959600, [0x62ac]);
  (742086050693441800, [0x906d]);
  (742128129381207650, [0x552e]);
  (742888589319729600, [0x5584591f5920]);
  (743270998963570000, [0x8b708bae]);
  (743954470227318200, [0x53f95606]);
  (745640267660529600, [0x4e5877a7]);
  (745683869143670700, [0x5370]);
  (746559915044206900, [0x625164b2]);
  (746603919445357000, [0x76db]);
  (746736048951477000, [0x6d17]);
  (746780130944696900, [0x54135687]);
  (748111708542274100, [0x54c1]);
  (748469810984044800, [0x9694]);
  (749144729181537600, [0x62a26436]);
  (749642580402180700, [0x5ff5]);
  (750051764878534000, [0x7d507ed3]);
  (751013090661345700, [0x88ad8972]);
  (751427933385802200, [0x8eba]);
  (752076684502688200, [0x5bfb5c0b]);
  (752917025582326200, [0x67e5]);
  (753057771559114100, [0x54ac]);
  (753198715909437500, [0x62f1]);
  (753339859193278300, [0x8dea]);
  (753811780786442900, [0x79fb]);
  (753859095667855500, [0x56f4570d]);
  (753906432946846000, [0x51748208]);
  (754001174782450000, [0x89ba89c9]);
  (754905727486597800, [0x5f815fb5]);
  (755529380263544000, [0x6298]);
  (755673854162981300, [0x61c2]);
  (755770286185883200, [0x62bd]);
  (755963429654906900, [0x517b990a]);
  (756205384769315900, [0x6a2a6a6b]);
  (756593734771955600, [0x523a]);
  (756642384736427700, [0x5bc4]);
  (756885990216215800, [0x8a668bd5]);
  (757571259662419800, [0x81f4]);
  (757669539768610700, [0x65578d25]);
  (758014282784261200, [0x6b62]);
  (758112999475397200, [0x6258]);
  (759605564497064800, [0x8003]);
  (760562509598679900, [0x62d6]);
  (760968189668241400, [0x64166447]);
  (761171648538020100, [0x626f]);
  (761426555635007100, [0x9632]);
  (761733304341793400, [0x602a]);
  (761784520732157400, [0x72af]);
  (761835763367150100, [0x9047]);
  (761938327478705100, [0x4e3481e8]);
  (762246652491717200, [0x52dd80dc]);
  (762504318184390100, [0x50995907]);
  (762762649508628150, [0x8f098f7d]);
  (763177372757272700, [0x63d2]);
  (763333338476437450, [0x966a]);
  (764221768673381100, [0x73a9]);
  (764695329147964500, [0x642c]);
  (765171142892606150, [0x5e9f5ee2]);
  (765277187441250100, [0x7092]);
  (766076126444598000, [0x4e89722d]);
  (766236683075288900, [0x79df]);
  (766719905492082800, [0x4f11]);
  (767151405622224100, [0x5931]);
  (767313699409537200, [0x5446]);
  (768020032147820150, [0x8cbc8d34]);
  (768786319422377100, [0x8cbb8d39]);
  (768896269955718800, [0x9f13]);
  (769006341513337300, [0x624e]);
  (769337285003474050, [0x79ef7a4d]);
  (769669327367204300, [0x5438]);
  (770280950068947940, [0x95d695ef]);
  (770392557223390000, [0x98f2996e]);
  (770616145913518400, [0x585e]);
  (771064828662877700, [0x8499]);
  (771177314613996100, [0x903c]);
  (771572014872673800, [0x649e]);
  (772252289604949000, [0x92ea94fa]);
  (772765549927601000, [0x642d]);
  (772937223789506400, [0x62e864a5]);
  (773569228191365300, [0x7f3a]);
  (773973502493061100, [0x6697]);
  (774321328930693600, [0x932f9519]);
  (774553887175041100, [0x6316]);
  (774962170040241900, [0x7741775c8cdc8d50]);
  (775783770906038600, [0x8de8958995ed]);
  (775901695448006100, [0x5410]);
  (776197116637749300, [0x805a]);
  (776612178010380650, [0x6ce89192]);
  (776850131721707100, [0x64e6]);
  (777148372324519200, [0x629b62cb]);
  (777687457188006800, [0x57cb]);
  (777988209294402300, [0x52076f5b6f5c]);
  (778108763859937200, [0x6d6e]);
  (778350309871097600, [0x6254]);
  (778653065173501350, [0x958395ea]);
  (778774424411697200, [0x63a2]);
  (779261339555078300, [0x8a0e8ba8]);
  (779322370988159700, [0x63a191c7]);
  (779689343877056000, [0x6311]);
  (779811968049380400, [0x900f]);
  (779873336569256700, [0x51cf6e1b]);
  (780180745357298900, [0x601d]);
  (780242340678002000, [0x7b54]);
  (780427354606818200, [0x672f8853]);
  (781108682730222900, [0x76ef]);
  (781732126146065800, [0x7e5e7ed5]);
  (781794684796839250, [0x767b]);
  (781919919628485800, [0x6df7]);
  (781982595907566700, [0x8d0f8d62]);
  (782045311494445200, [0x4e1f4e22]);
  (782170860789028400, [0x5bb3]);
  (782296567908033500, [0x9732]);
  (782674640192024100, [0x6276]);
  (782800982596701300, [0x947d94bb]);
  (783244442303487900, [0x7d717edf]);
  (783753673193859200, [0x80af]);
  (784073264389498100, [0x523b]);
  (784201387405102950, [0x6eda6efe8cb88d378eb2]);
  (784844476438132000, [0x593a596a]);
  (785686723075601600, [0x5077]);
  (785816931427331400, [0x6dfb]);
  (786733168203531900, [0x632464e0]);
  (787194454029721800, [0x9867987e]);
  (787923658454163800, [0x99d59a7e]);
  (788056814266115000, [0x632563ee]);
  (788190147619201500, [0x5939593e]);
  (788390481576018900, [0x7838]);
  (789263263215668000, [0x9012905e]);
  (789668669176323200, [0x731c]);
  (789804170552069200, [0x8a8d8ba4]);
  (791032016809940700, [0x659c]);
  (791238131620114800, [0x62e564c1]);
  (791789857157590200, [0x6da66f648b1d8c22]);
  (792066865644971800, [0x6367]);
  (792136237829509000, [0x4f0f]);
  (792553484610089050, [0x6572]);
  (792692954646644000, [0x65a965ac]);
  (793322988232269100, [0x9644]);
  (793393237620475900, [0x6c886c89]);
  (793463536393142550, [0x62d493969501]);
  (794240102244179800, [0x8b008c0b]);
  (794381946239593200, [0x8f388f93]);
  (794452943757662400, [0x7785]);
  (794879990670007700, [0x6349]);
  (795094199962913100, [0x8cde8d4f]);
  (795452238297414300, [0x7e317eb5]);
  (795739594816987500, [0x6d4b6e2c]);
  (796461619614336150, [0x5bb9]);
  (796606652272100800, [0x8b5c8c31]);
  (797627813589120500, [0x821e]);
  (797701154259807900, [0x7b517bc9]);
  (798216050579427100, [0x514c5151674296dc]);
  (798363652082239200, [0x4e8f8667]);
  (798437534612382400, [0x7d0d7eb3]);
  (799477662860343900, [0x51c968076a196dbc]);
  (799701962019802100, [0x8d8b8da8]);
  (800076915589950000, [0x60a3]);
  (800152075307881300, [0x5806]);
  (800604223779765800, [0x5fe76182]);
  (801058425923215900, [0x5f559304]);
  (801134327255133100, [0x716e]);
  (801210286240935000, [0x62b5]);
  (801514700479057800, [0x64a4]);
  (801667255809941500, [0x7a337a69]);
  (802356649578210800, [0x5269]);
  (802510495762401300, [0x4f38]);
  (802587507703057700, [0x7de97f13]);
  (802818900016097500, [0x61236492]);
  (803438576669848500, [0x5ac1]);
  (803516306949704700, [0x7981]);
  (803671949004470500, [0x52d2780d]);
  (804062117271576900, [0x817e9a30]);
  (804140333935713200, [0x9707]);
  (804453813816250300, [0x60ac61f8]);
  (805162757313299200, [0x626b63839759975c]);
  (805638194025026500, [0x547c]);
  (805717653703422700, [0x6b47]);
  (806036125310174600, [0x9189]);
  (806595902861457500, [0x52125283]);
  (806917188278390200, [0x7275727d]);
  (807078218909000500, [0x77aa]);
  (807643876982927900, [0x62a48b77]);
  (807724947113026700, [0x63e1]);
  (808049886472857700, [0x6f14]);
  (808375885131578500, [0x8b588bc6]);
  (808457551122234000, [0x514d]);
  (808866884481334100, [0x9022]);
  (809031088130708500, [0x8b6f8bd1]);
  (809856175319708000, [0x6284]);
  (810188125831993300, [0x5782]);
  (811695692072538000, [0x536b885b]);
  (811864611031622600, [0x9677]);
  (812033815809725000, [0x78b0]);
  (812458084583604000, [0x8f9e8fad]);
  (812628297390657100, [0x600061f7]);
  (812798800415765400, [0x5a36]);
  (813140681090643900, [0x78e8]);
  (813483734600322900, [0x57f76267]);
  (813569682177594800, [0x778e]);
  (814780769644585600, [0x54fc]);
  (815129505830627300, [0x5acc]);
  (815918637501351500, [0x796d]);
  (816006704437911000, [0x6e7e7063]);
  (816271371553148300, [0x6ce1]);
  (816536741014495000, [0x632164cb]);
  (816891665965609100, [0x527262c564d4]);
  (817426426598268700, [0x62b9]);
  (818324098694424500, [0x63a76cdb]);
  (818504604158597500, [0x907f]);
  (819048083757193300, [0x6d8c6e67]);
  (819503250678665100, [0x8010]);
  (819594533204401000, [0x632f]);
  (819868881798976200, [0x8d81]);
  (820419847380073200, [0x75bc]);
  (821717363266386500, [0x62fd]);
  (822184872299285800, [0x8ff7]);
  (822843078718849900, [0x522e]);
  (822937462869320600, [0x52a9]);
  (823315892838444400, [0x6398]);
  (823410724519330400, [0x51a0]);
  (824268280989570100, [0x6ed1]);
  (824364020585202800, [0x8ce68d4b]);
  (824844098319538500, [0x4ed8]);
  (825133255147518300, [0x8e29]);
  (825229826859514200, [0x8e22]);
  (825326491922623800, [0x6b20]);
  (826103194856389700, [0x5fcd]);
  (826591715612994600, [0x89e689f8]);
  (827279679014348300, [0x6454]);
  (827378347004593000, [0x88c29913997f]);
  (828071762363492800, [0x800d]);
  (828270767404293700, [0x959295f2]);
  (828370418633267600, [0x719f]);
  (828570019497939100, [0x62ab]);
  (829070771671001300, [0x58ee58ef]);
  (829372431024944000, [0x634f]);
  (829574043996462300, [0x55829935]);
  (829877227654674400, [0x9806987a]);
  (829978493486113000, [0x62bc7e2e7f29]);
  (830384585414744500, [0x50ac]);
  (831099238788152000, [0x6e21]);
  (831201750329676500, [0x8f9f95e2]);
  (831304367065207700, [0x6bc06bc1]);
  (831407089210860700, [0x626d]);
  (831509916983417300, [0x7df47ec3]);
  (831715890279718400, [0x8aa48bef]);
  (832129114008209400, [0x8e0f]);
  (832960719632375100, [0x503e50be]);
  (833904617568468400, [0x6328]);
  (834010047203959100, [0x6b6a]);
  (834221240524273400, [0x6296]);
  (835283949781702000, [0x542f555f]);
  (835390844500592400, [0x8e72]);
  (835712215960902100, [0x6d88]);
  (835927038814731000, [0x820d]);
  (836142324150841200, [0x5224]);
  (836250140872875700, [0x8b028c13]);
  (836574290265292800, [0x54bd]);
  (836682573979176000, [0x540a]);
  (836899493803930600, [0x704c70b8]);
  (837116885193892600, [0x5019]);
  (837771909369964400, [0x7b7e7c3d]);
  (837991207703465300, [0x6014]);
  (838431252417947600, [0x60f9]);
  (838984045423198800, [0x6263]);
  (839428490599241300, [0x5145]);
  (839763125601975700, [0x969096b1]);
  (840098884171460200, [0x7e2b7f1d]);
  (840211054682380300, [0x7792779e7e617ee3]);
  (840323351156842700, [0x6d3b]);
  (840660999198503200, [0x8fd4]);
  (841112977369065200, [0x4f10]);
  (842366555038563200, [0x6e9c]);
  (842941599751407000, [0x5bfc5c0e]);
  (843404028321118400, [0x60b695f7]);
  (843519970363092000, [0x51d16e4a]);
  (843985087480665000, [0x7f5a7f70]);
  (844218459815287000, [0x85cf]);
  (844335350535785200, [0x58576d827c98]);
  (845630247969865500, [0x4f3464906491]);
  (845867496005228500, [0x65bd]);
  (846343687381253000, [0x636164bf]);
  (846942133212777000, [0x51bb51cd6ef4]);
  (847062253347340300, [0x55b756745f2f5f4e]);
  (847182517943916300, [0x56b7]);
  (847544181990935300, [0x7e8f7f20]);
  (847786020077363400, [0x878d]);
  (848515063403631400, [0x54c4]);
  (849372386474680100, [0x541e]);
  (850485570511564500, [0x70e67169]);
  (850610026034785000, [0x71ac]);
  (850734636642809700, [0x63a9]);
  (851109402852833700, [0x92b79500]);
  (851360029550439600, [0x665266ec]);
  (851485578845022900, [0x70c2721b]);
  (851737151304747700, [0x62d063ed]);
  (851989358248018600, [0x4fc38ced8d4c]);
  (852242202883354400, [0x90bb9130]);
  (852495688443673300, [0x944494f8]);
  (852877125651220400, [0x602875af760b]);
  (853132227830381000, [0x7814]);
  (854159194494126500, [0x67d37406]);
  (854288310070488400, [0x586b]);
  (854417592570719000, [0x6dd8]);
  (854676660073128300, [0x622a]);
  (854936400478896800, [0x8cfd8d5b]);
  (855066524114694000, [0x656c]);
  (855196817292735600, [0x536781e5]);
  (855327280455402100, [0x4ef0635e6488]);
  (856641359811508000, [0x53f68449]);
  (856906260628665500, [0x62c6]);
  (857304932253047800, [0x88f9]);
  (857438176776425600, [0x98c498d8]);
  (857571599077739300, [0x543b]);
  (857705199632013500, [0x8cf48d56]);
  (857838978916179500, [0x6458]);
  (858107075591505200, [0x56f0609f]);
  (858780478809639700, [0x5378]);
  (859322485556573700, [0x80bf816b]);
  (860415392609792600, [0x62e66514]);
  (860828331943993800, [0x8a028ba299529976]);
  (861381583700966200, [0x6101]);
  (861798540524638800, [0x6cbe]);
  (862217243160060500, [0x63236399]);
  (863059944776248500, [0x63c9]);
  (863201088060089300, [0x525d5265]);
  (863625717148234400, [0x7728]);
  (863909808248394700, [0x906e]);
  (864194708726002100, [0x50a85132]);
  (864337463925120800, [0x7e8c7eed9a199a97]);
  (864910531396019200, [0x53d96558]);
  (865054312872982000, [0x632b]);
  (865631515052694100, [0x643a651c664391d89489]);
  (865776337670330800, [0x6405652a7e547ec7]);
  (865921370328095300, [0x524c]);
  (866212068207226300, [0x63ea]);
  (866503613603238600, [0x8a9e8bed]);
  (867383384673591500, [0x614c6402645f]);
  (867678370138233700, [0x62fe]);
  (867974228342208100, [0x5435]);
  (868122486338230500, [0x62fc]);
  (868270964464988500, [0x7f69]);
  (868568583732293000, [0x98fe9970]);
  (868717726190960000, [0x8854929c]);
  (868867091416638400, [0x5c6f625b]);
  (869016680075796600, [0x63a0]);
  (869166492837898900, [0x8a2a8bbf]);
  (869466793363875800, [0x53866b777533]);
  (869918941835760300, [0x543c9010]);
  (870373143979210400, [0x4e32]);
  (870525004296929500, [0x634e]);
  (871134762283741400, [0x60ef61636cfc6f51]);
  (871287784501818000, [0x70bc7149]);
  (871594533208604400, [0x533b91ab]);
  (871902225759052200, [0x638c6479]);
  (872056427794233700, [0x7529]);
  (872520465749883900, [0x986b98a4]);
  (873142551737394300, [0x641c64d2]);
  (874082997540192000, [0x76fc8ce08d54]);
  (874240601985738600, [0x526a65007d817ed1]);
  (874873515490903300, [0x57ab588a5ba15be9]);
  (875032371759417200, [0x5835607c60f1]);
  (875191480782641300, [0x683d]);
  (875670332455821100, [0x527f]);
  (875830460592518500, [0x552c]);
  (875990845550715800, [0x7b797c4c8352]);
  (876312389236113300, [0x8fc89081]);
  (876634970161001600, [0x633a]);
  (877609003835840000, [0x6233]);
  (877935801512301800, [0x963b]);
  (878922651626377000, [0x501a54a7788e]);
  (879253777756742700, [0x7b26]);
  (879419752898579000, [0x8f5f8f70]);
  (880086422034398000, [0x63b764f276ea8361]);
  (880421430722926200, [0x52fe]);
  (880926057529688800, [0x51ff62f46346947f]);
  (881263895688851300, [0x5237]);
  (881433243739484800, [0x7d2f90ae90f5]);
  (882113518471760000, [0x52b352de]);
  (882626778794412000, [0x8d0a8d5e]);
  (882798452656317400, [0x7ad68c4e]);
  (882970421744270200, [0x78d5]);
  (883315249672161700, [0x96d5]);
  (883661270778651300, [0x640164f1]);
  (884182557797504600, [0x5d4c6212]);
  (884356925757987300, [0x66556688]);
  (884531598291481400, [0x584c]);
  (885057454016828200, [0x524a632a]);
  (885409567056686000, [0x8caa8d2a]);
  (885586089609142800, [0x5598]);
  (885762924314817100, [0x618b]);
  (886117534615492100, [0x7206]);
  (886473406877191600, [0x62e7635064f0]);
  (886651819056541700, [0x62e26355650f]);
  (887368668004403000, [0x7e6a7ed8]);
  (887548686054817700, [0x795d]);
  (887729028754732900, [0x56bc]);
  (888090692801751700, [0x64ae]);
  (888635653278508100, [0x68c06aa2]);
  (888817968734659700, [0x8015]);
  (889000617187263100, [0x57085bb070eb71d9]);
  (889366917963136800, [0x633d8a138bad]);
  (890103569544813100, [0x6495]);
  (890288583473629200, [0x6f0f]);
  (890473940338561600, [0x5f135fcc]);
  (890845687978574800, [0x5475]);
  (891218822739860500, [0x88c1]);
  (891969295305267300, [0x780178bc84b893df94f29cf49e23]);
  (892346654243631200, [0x6252714e]);
  (893105671170298800, [0x62d36574]);
  (893487351022969000, [0x675f6c6a]);
  (893678738641197300, [0x62e3638f63c08a558bc4]);
  (893870493254124600, [0x8e05]);
  (894062616271914000, [0x690d]);
  (895417912912384200, [0x4eff6eb6]);
  (896004424857624000, [0x6345]);
  (897386480419487300, [0x5bbf]);
  (897585485460288300, [0x93109525]);
  (897784887320974800, [0x4e604eab63427fd29080]);
  (898787904756968500, [0x892a]);
  (899394580025192200, [0x6413]);
  (899597625780230500, [0x6de4]);
  (900004958318994000, [0x50f196c7]);
  (900619085121202200, [0x515c5760589c6e7f6fd5]);
  (900824635039411900, [0x70e4]);
  (901030608335713000, [0x99b19a6e]);
  (901443832064204000, [0x52ab]);
  (902275437688369700, [0x660f]);
  (902484424180315700, [0x63206493]);
  (903324765259953600, [0x6fc0]);
  (903535958580267900, [0x7dec7f05]);
  (903747598870905700, [0x8e7f8ea5]);
  (905241756870725600, [0x8896]);
  (906105693129796400, [0x53e0758a]);
  (906322848481147100, [0x6d127051]);
  (906540476423406700, [0x56175c1d]);
  (907856284881157700, [0x6674]);
  (908077279446238200, [0x5288]);
  (908298763479193400, [0x7f9e]);
  (908743208655235800, [0x54b3]);
  (909189637968104400, [0x6d476f86804a]);
  (909638069212837200, [0x817b81a9]);
  (909863041186238800, [0x627064fe]);
  (910314509221691500, [0x67af]);
  (910541009884776600, [0x76b176ba]);
  (910995556121944000, [0x62e964c7]);
  (912141044019420700, [0x51b364ad6c7a]);
  (912371724629212200, [0x637b]);
  (913533177871281600, [0x94729576]);
  (913767096106598800, [0x7b8d]);
  (914001562802524200, [0x5543]);
  (914944966025860000, [0x7b3c7c60]);
  (915420026301719900, [0x780c]);
  (915658405437247500, [0x60e761fc]);
  (915897354176985500, [0x67d4]);
  (916858900046929800, [0x6f2b]);
  (917100738133358000, [0x62ce]);
  (917343162494508500, [0x62cc]);
  (918073981825181000, [0x63fd652c]);
  (918564178885201700, [0x77a5]);
  (919800288567559000, [0x8017]);
  (920049354698804200, [0x582a8cb68d2c]);
  (920299042718663000, [0x53c9]);
  (920549355740474900, [0x5243]);
  (921051869360742000, [0x6380]);
  (921304076304013200, [0x6cfb7009]);
  (921556920939349000, [0x65126522]);
  (921810406499667900, [0x59388a87902e]);
  (922064536242535100, [0x611a6620]);
  (922830823517092000, [0x718f7fd87ff9]);
  (923087563067616700, [0x7e737f34]);
  (923344963467133800, [0x8d088d60]);
  (924121164000682800, [0x8d168d4e]);
  (924381242170688500, [0x6376]);
  (924641998511396700, [0x579258d8]);
  (924903436568803600, [0x8e66]);
  (925428372157418000, [0x8058]);
  (925691876921218600, [0x7d617edc]);
  (925956077867502400, [0x5065]);
  (926752894832420200, [0x4ea17d5e7ede]);
  (927019917688008000, [0x52fb5300]);
  (927556112002146600, [0x8fa3]);
  (928095196865634300, [0x545b55c6]);
  (928365833025408400, [0x62c8]);
  (928909312624004200, [0x63906d78]);
  (929182164089324700, [0x65778ca98d29]);
  (929730110665787100, [0x8e6c]);
  (930281076246884100, [0x7cca]);
  (930557701596173100, [0x6ecb]);
  (931392198789391100, [0x68b3980c98829a579a8c]);
  (931671919251497400, [0x6f027e437ef7]);
  (931952424344258100, [0x5c48]);
  (932515806116083800, [0x5d29]);
  (932798691736131500, [0x659f772f778798fd9971]);
  (933366875082874600, [0x56e4]);
  (933652181981115300, [0x644a6524]);
  (933938305209218500, [0x62db]);
  (934225249452013700, [0x541f55c5]);
  (934801619923688800, [0x54d1555e]);
  (936257249701109600, [0x5ba05bf56dcb715e]);
  (936845486691416200, [0x54926e176ef2]);
  (938331398131791200, [0x62c2]);
  (938932000537812400, [0x508d901b]);
  (939536231983408700, [0x636364177a9c7ac4]);
  (939839722352924000, [0x63e96dcc]);
  (940144136591046800, [0x64ac64b56506]);
  (940449480339735900, [0x6602]);
  (940755759292790500, [0x4fef]);
  (941371145850228300, [0x631f633e9ed8]);
  (941680265107195600, [0x64006519]);
  (941990342875020300, [0x4fd871098214]);
  (942301385116459600, [0x57ae]);
  (942926387150976800, [0x7b5b7be9]);
  (943871276070770000, [0x6ee46ffe]);
  (944825178375446000, [0x63a3]);
  (945145178648513000, [0x84c4]);
  (945466206211537900, [0x6795]);
  (946760722670741500, [0x985b98a0]);
  (947086987234223000, [0x604b6200]);
  (947742727288839000, [0x818f]);
  (948072216878524400, [0x6e856ffa7d217eba]);
  (950747961795479300, [0x8caf8d2e]);
  (951428236527754500, [0x648268978e31]);
  (951770117202633000, [0x52aa99dd9a7c]);
  (952457405131409200, [0x7cdf]);
  (952802828618218000, [0x63e39017]);
  (953846316347476000, [0x51a462bf]);
  (954548073613340600, [0x57a658be6525]);
  (954900807665137400, [0x634b]);
  (956324319247324600, [0x5e0c655e931b951b]);
  (957043746810727400, [0x576a8638]);
  (957405410857746200, [0x5228]);
  (958498317910965300, [0x6627]);
  (959603301529623700, [0x6487]);
  (959974359469277300, [0x626e7db47f00]);
  (961095866551291200, [0x779f]);
  (962230094211684800, [0x64a9886c896f]);
  (963377334327908500, [0x6273]);
  (964149538937299500, [0x62a162ec63847b3a7b8b8a508bc8]);
  (964927752981505000, [0x77848ff89042]);
  (965319142913618600, [0x53ee89bd89c8]);
  (966502588678318900, [0x667e752d]);
  (966900203516282800, [0x542d62a06473]);
  (967299405643236600, [0x99c19a73]);
  (967700207782990400, [0x62c4709671c978be]);
  (968506663766663500, [0x92e49504]);
  (970965804080395700, [0x4f305a075b0c89b789d1]);
  (971381605095262100, [0x6396]);
  (971799142236310000, [0x788d7919]);
  (973913385893691000, [0x82eb]);
  (974341652072891200, [0x63b0]);
  (974771760262830300, [0x5241]);
  (975637566537141700, [0x4e4f]);
  (976510934534017100, [0x8e6d]);
  (977835457209019200, [0x6df9]);
  (978280892243957300, [0x4f43647a84ec]);
  (978728320283449300, [0x8db4]);
  (979177759242233300, [0x5239524e8dfa]);
  (980082742794225000, [0x92f8952f]);
  (980995991150552300, [0x6ea2]);
  (981455762075415300, [0x58a9]);
  (981917656661044600, [0x7d467eca]);
  (982847895927276100, [0x70d8]);
  (983786869962260000, [0x4f696846]);
  (984259684081854600, [0x4e88]);
  (986173618102924400, [0x7a7a95b99609]);
  (986657880550503000, [0x6420]);
  (990115014957012000, [0x54775c94]);
  (990618794360007700, [0x4e4d]);
  (991634031506409600, [0x5659]);
  (992145541573086500, [0x6d9d6f878fc4]);
  (993176478538972600, [0x7194]);
  (994218154624798200, [0x899389c5]);
  (994743090213412600, [0x60d1]);
  (995270795923496900, [0x5fc661b663cf]);
  (995801301146466300, [0x53fc]);
  (997951921668562600, [0x8200]);
  (999044828721781600, [0x77ee]);
  (999595794302878600, [0x557c935894e1]);
  (1001267142400252700, [0x63ba647b]);
  (1001830524172078400, [0x5250526e8ad28c058ecb8f67]);
  (1002397097925646100, [0x762b7671]);
  (1002966900037109900, [0x638265836bd9]);
  (1004116337979683300, [0x804b807e]);
  (1004696049748115900, [0x91e39493]);
  (1005279141779195300, [0x54af6c81]);
  (1005865653724435000, [0x7422]);
  (1006455625937153900, [0x7dbd7ef0]);
  (1007049099489135300, [0x63b864a3]);
  (1007646116187785700, [0x6f84]);
  (1008246718593807000, [0x784c]);
  (1008850950039403200, [0x64c270f97db07efe]);
  (1009458854647041400, [0x5220522a]);
  (1010070477348785000, [0x70d9]);
  (1010685863906222800, [0x853d]);
  (1011305060931014800, [0x57f9630e8a918bf3]);
  (1011928115906078500, [0x69a87119]);
  (1013185994126764600, [0x5c608e39]);
  (1013820916894630400, [0x814c9183]);
  (1014459896704507500, [0x52567e0b7f128000]);
  (1015750237188098400, [0x55447dc47ef2925794b3]);
  (1017057445344833500, [0x64ce]);
  (1017717513747968800, [0x7d6e99b49a6f]);
  (1018381968019835600, [0x5406]);
  (1019724270053049700, [0x5550710a]);
  (1021084835258627500, [0x6c8f]);
  (1022464167471861200, [0x568e7638]);
  (1023161034403470500, [0x581558ae]);
  (1023862791669335200, [0x542e8df78e7a]);
  (1024569508391644300, [0x53649e75]);
  (1025281255168530800, [0x541b]);
  (1025998104116392000, [0x8a868bd3927894f0]);
  (1028918019585618300, [0x63cd8a1b8bb9]);
  (1029661517434370100, [0x7a9d7aa997a3]);
  (1030410584607285800, [0x8c419f5c9f87]);
  (1031165305170824100, [0x7ef1]);
  (1031925765109346000, [0x97ad]);
  (1032692052383903000, [0x564e5b756065803b]);
  (1033464256993294000, [0x5c3f85b0]);
  (1034242471037499600, [0x8e81]);
  (1035026788783602000, [0x917191ac]);
  (1037417340868957500, [0x6e0d6f2c]);
  (1038227061892219500, [0x64bc917f91c0]);
  (1039043392956135600, [0x525c]);
  (1040696323151256700, [0x5482648586c0]);
  (1041533148118308300, [0x56185653]);
  (1042377034982894700, [0x553e]);
  (1043228103949685500, [0x4fcf7184840c]);
  (1044086478318824800, [0x676069d3]);
  (1046706715558227000, [0x8912]);
  (1047595610299951800, [0x574d6c726f06]);
  (1050310709206546800, [0x60a0]);
  (1051232374717039200, [0x761f]);
  (1052162613983270700, [0x6f31]);
  (1055006407515323900, [0x61f57172]);
  (1055972598606497600, [0x776c8e4b]);
  (1057933445745335300, [0x5de2]);
  (1058928478830652200, [0x504e7e5a7f2d]);
  (1059933512416002300, [0x5578562f7110]);
  (1060948749562404000, [0x6414783b7931]);
  (1061974399579122900, [0x6ca46f1a732b7a988c93]);
  (1063010678282677500, [0x6dae]);
  (1065116019202460900, [0x934d9540]);
  (1066185548114135700, [0x579b]);
  (1067266639724557100, [0x7168]);
  (1069464530396434700, [0x6775709d7197]);
  (1070581860456247200, [0x57686247]);
  (1071711815981640600, [0x7c747cf480a5]);
  (1074010767804110400, [0x64c06954905b]);
  (1075180371780429500, [0x6d5e852b933e93e8]);
  (1077561436649801300, [0x64418737]);
  (1078773572703035900, [0x673d6f3e]);
  (1080000581962217300, [0x97099ef4]);
  (1081242833962073000, [0x71ce]);
  (1083774614760502000, [0x87ab8cc38cd28d418d4a]);
  (1085064955244092700, [0x55cd643d]);
  (1086372163400828000, [0x7c9c7cf6]);
  (1087696686075830100, [0x711671dc77797ce0]);
  (1089038988109044200, [0x70ae99339967]);
  (1090399553314622000, [0x5658]);
  (1091778885527855700, [0x63ac645e]);
  (1093177509725329700, [0x5ad68e2e]);
  (1096034846969735300, [0x8202]);
  (1097494726911850500, [0x71a8]);
  (1098976235490364700, [0x7aa8]);
  (1100480023226818600, [0x562c5706571388f1]);
  (1102006770439897600, [0x7532]);
  (1103557189093494100, [0x52547743]);
  (1105132024790308000, [0x9ebb]);
  (1108358111012130100, [0x60e66649664b]);
  (1110011041207251200, [0x4f83]);
  (1111691753038889300, [0x502962bb]);
  (1115140370646006200, [0x70e971f4]);
  (1116910328355946400, [0x621762278180]);
  (1118712178906214100, [0x81468a8a8b049794]);
  (1120547092773033700, [0x55d15d346599]);
  (1122416306074249100, [0x92ac94d0]);
  (1124321125571318400, [0x6421712f802a85858a638be393089529]);
  (1126262934157028700, [0x54fd]);
  (1130263467618398500, [0x926494a9]);
  (1132325396338672000, [0x6004616a]);
  (1134430737258455400, [0x4e50642a6a0288a2]);
  (1136581357780551600, [0x54727145]);
  (1138779248452429200, [0x7823]);
  (1141026534037635000, [0x629f6476]);
  (1145678535601124400, [0x8e518ea1]);
  (1148088290759030400, [0x637a]);
  (1153089332816496600, [0x68f09477954a]);
  (1155686881456822600, [0x64e4943594c1]);
  (1158353706165038800, [0x840e]);
  (1161093603583850300, [0x7198]);
  (1163910691280519800, [0x4ed787078dbf]);
  (1166809444967845000, [0x542362f392b99508]);
  (1169794741282813200, [0x89de89f4]);
  (1172871907149488600, [0x5361]);
  (1179325759263245700, [0x958295e9]);
  (1182715914430813900, [0x8a318bb8]);
  (1186225046411940900, [0x6821]);
  (1189861810829028200, [0x5520562e717a]);
  (1193635843627313000, [0x63b464517818]);
  (1197557914942641000, [0x92bc9509]);
  (1201640114394666600, [0x897b9a389a9f]);
  (1205896075836546200, [0x993e998f]);
  (1210341252093629500, [0x5261]);
  (1214993253657118900, [0x528163ce65097178952a]);
  (1219872270074062100, [0x646974e6]);
  (1225001599512817100, [0x6c468019]);
  (1230408321639844800, [0x652e6cc57f71]);
  (1242186625205483000, [0x6e34]);
  (1248640477319240300, [0x5b9d5bf66f0972819813987f]);
  (1255539764467935300, [0x55276225]);
  (1262950561683307500, [0x503c78c5]);
  (1270954832450661200, [0x592f6d466f3f78777d4e7ed79e7c]);
  (1279655970149624100, [0x547d70c076b479e77c8980f681a0]);
  (1289186988130056700, [0x7e9c7f06]);
  (1299723039695839300, [0x626c63da641b6f72]);
  (1311501343261477500, [0x6cf56d076e6e]);
  (1324854482523929800, [0x63ad8d84984c9898]);
  (1340269550506655700, [0x623d6bd26c3d770d9f4a9f50]);
  (1358501706186051200, [0x6ce56ed7]);
  (1380816061317472000, [0x588166ff785d8022]);
  (1409584268562650200, [0x640b7d157eb099db9a429a769a96]);
  (1450130779373466600, [0x68446f2471df78b17e707f328020842592fc94a2959895f8]);
  (1519445497429461200, [0x4f1b50b457515e0380a982e5])
].
(** prob_emit.go:88230-88230 probEmit, state 453 *)
Definition emit_453 : list (Z * list Z) := [].
(** prob_emit.go:88231-88900 probEmit, state 454 *)
Definition emit_454 : list (Z * list Z) := [
  (279224598225170430, [0x66f0]);
  (330235487020653800, [0x559d]);
  (330628616319383800, [0x8a00]);
  (351967270819311430, [0x62186230]);
  (352990079650643860, [0x5177]);
  (405924480081675900, [0x59cb]);
  (405997233813513600, [0x611f]);
  (415096144511095300, [0x5fa179a6]);
  (417109094926118300, [0x5b9c]);
  (418914642539070300, [0x521b5275]);
  (419997084415156600, [0x52df]);
  (425902700221779450, [0x592e]);
  (425947115057064350, [0x89c089c2]);
  (432463181099860100, [0x7e7c7ee7]);
  (435691599275276500, [0x5f027570]);
  (436824337316453800, [0x899689c6]);
  (441436251630688500, [0x6bd57562]);
  (441540039911930500, [0x8054806f]);
  (448639794885863450, [0x5e866176]);
  (456162137009622200, [0x57065713]);
  (462232111492662800, [0x51fb64ca]);
  (467005819393818560, [0x5524559a]);
  (469859273859318800, [0x6012]);
  (471317126822342300, [0x76d776dc]);
  (477000065351717700, [0x903e]);
  (478566677026157600, [0x9063]);
  (479094382736242000, [0x626964f4]);
  (480464267172058200, [0x8d64]);
  (481388061270551850, [0x4f3c]);
  (482554935653989600, [0x6388]);
  (491213402134041700, [0x4ea1]);
  (494157337679110000, [0x629a64ab]);
  (499945571640856600, [0x5f0368c4]);
  (502300838308107900, [0x4fb5]);
  (506685369122570200, [0x7763]);
  (512003595668601100, [0x6444651d]);
  (512953470884391800, [0x64b0]);
  (514126817679178500, [0x8cfc8d2d]);
  (516186511088240800, [0x6cc46d29]);
  (517620622815306500, [0x626c63da]);
  (519867908400512400, [0x846c]);
  (526807788202494700, [0x8986]);
  (528033293736196300, [0x62d2]);
  (528156674381089200, [0x76c8]);
  (534791760583500400, [0x96c6]);
  (535453576367748200, [0x5c55]);
  (538692725946871800, [0x5948]);
  (540213142242915200, [0x64c5]);
  (540771802913779200, [0x53e9]);
  (541757032558080300, [0x534f5354]);
  (544626669925502700, [0x662d]);
  (546092971856510100, [0x9769]);
  (546685566183264800, [0x4f50]);
  (549396575584212400, [0x99b39a70]);
  (549855642955072300, [0x90029069]);
  (550471029512510150, [0x9006]);
  (550935067468160300, [0x5141]);
  (551713281512365850, [0x9a459a71]);
  (553446973477693600, [0x8ff0]);
  (555373196757198800, [0x6d89]);
  (558000605694216800, [0x8cc08d3a]);
  (559003958593174600, [0x8feb]);
  (562946200009757800, [0x8f148f85]);
  (563121178182136500, [0x6790]);
  (564000691327419300, [0x63f4]);
  (565424202909606500, [0x7e1b7f1a]);
  (565783269722679400, [0x758f8aeb8c0f]);
  (566143630473009200, [0x8fa8]);
  (567598201573247100, [0x54d75629]);
  (567781519681413200, [0x4e2755aa]);
  (568333499003772950, [0x793a]);
  (569260289696851100, [0x8dc38e8d]);
  (569446683040657400, [0x6055]);
  (570383897023543700, [0x681668f2]);
  (573249422599581300, [0x7ade7af6]);
  (573832514630660650, [0x5f99]);
  (574615297492685300, [0x754f]);
  (577606547428945300, [0x678469cb]);
  (579445210053989300, [0x6ede6eef]);
  (579858433782480300, [0x5426]);
  (583013269555972900, [0x7591]);
  (584737450199423500, [0x7a837aca]);
  (585173180736319050, [0x7720]);
  (585391760058317100, [0x5faa]);
  (585610818196298900, [0x8a93]);
  (586713365197469700, [0x707c]);
  (587157810373512100, [0x63d6]);
  (588052670931113600, [0x71c3]);
  (589182626456506850, [0x616e8651]);
  (589638208110092950, [0x80388073]);
  (590325496038869200, [0x6291]);
  (591714407254935900, [0x6e836f70]);
  (599214898619293800, [0x80b2]);
  (600989343149201000, [0x54c095b19605]);
  (602017629844759400, [0x51dd]);
  (602795843888964900, [0x51b6]);
  (603318038287080100, [0x665366c9835085a6]);
  (603842973875694400, [0x60dc]);
  (604106478639495000, [0x55dc]);
  (604370679585778800, [0x627f]);
  (606509798583910600, [0x9057907a]);
  (607051805330844500, [0x655b65828aa68bf5]);
  (608419815721252500, [0x86808755]);
  (609527860298909700, [0x8ae18c25]);
  (611781476801151000, [0x608560a6]);
  (612639851170290100, [0x8fa98faf]);
  (614671851419385900, [0x6094]);
  (615260088409692600, [0x711a]);
  (615555509599435700, [0x6b7c6bb2]);
  (618254324071200400, [0x8b018c12]);
  (619170361011066800, [0x4e8865a5]);
  (619477580914763900, [0x6789]);
  (621340988869253150, [0x901d]);
  (623239780093722300, [0x8a988bf1]);
  (625501588952499500, [0x604d]);
  (627149072672850050, [0x8a3a8bca]);
  (628824153715331600, [0x52d8900a905c]);
  (629842838246030800, [0x635f640d]);
  (631217430336494400, [0x62d8]);
  (637648217059767500, [0x5e87]);
  (639510468269567700, [0x8fdd9055]);
  (639887116549115400, [0x6fd27015]);
  (642952490658215600, [0x4f5a9038]);
  (644917190396595250, [0x5e7b]);
  (645714007361512900, [0x63b364c4]);
  (646921265484939840, [0x99db9a76]);
  (650213743954586500, [0x6043]);
  (652756253791167500, [0x5636]);
  (654052168255418000, [0x5f7b5fb9]);
  (654487898792313600, [0x56fa]);
  (655806599220509000, [0x542079c9]);
  (656250058927295600, [0x884d]);
  (657142922001725700, [0x5e786d4e6fdf]);
  (657592360960509700, [0x98129881]);
  (658043828995962300, [0x6b89]);
  (658497344512501400, [0x563156d1]);
  (660796296334971340, [0x5ac9]);
  (661262497645552500, [0x62ed]);
  (662201471680536400, [0x5a9a]);
  (663626673951256500, [0x627c8d0d8d61]);
  (664588219821200700, [0x9761]);
  (665072482268779500, [0x55e4]);
  (665559101233896700, [0x60968e59]);
  (668028362492933900, [0x60b2]);
  (668529616675288400, [0x56da7a76]);
  (669033396078284100, [0x5bd3]);
  (670048633224685900, [0x6170]);
  (671074283241404800, [0x8c62]);
  (672110561944959400, [0x538c53ad6d63]);
  (672632756343074600, [0x7aa57aba]);
  (675824516639905150, [0x76d176e3]);
  (676911483863595450, [0x6002616b]);
  (678010396021155000, [0x5f8a708a7dbb7efd8a1f8bbc9041]);
  (679681744118529100, [0x601c6190]);
  (680811699643922450, [0x50216127]);
  (681954569226284700, [0x901e]);
  (683693743497471600, [0x8db88e89]);
  (684870227655430200, [0x54017c72]);
  (686060717906062050, [0x54c2]);
  (686661320312083200, [0x53525c656b239075]);
  (687265551757679600, [0x7d22]);
  (688485079067061400, [0x6518]);
  (690342717624354900, [0x6eaf]);
  (690969678925714400, [0x5cd9]);
  (691600595845040900, [0x4fa6507586fb8715]);
  (692235518612906800, [0x566c]);
  (693517587455812900, [0x6021]);
  (694164838906374600, [0x8aa38bec]);
  (694816307008494100, [0x6cb871157165914c]);
  (695472047063109900, [0x921094a4]);
  (696796569738112000, [0x7cfe7ea0]);
  (697465468553191700, [0x5055]);
  (698138871771326100, [0x7f448b748c34929194e3]);
  (700186724905680200, [0x594b596e]);
  (700878769190137500, [0x5bdd5be28eac]);
  (701575636121746900, [0x55a7620d]);
  (702984110109920750, [0x608987e0]);
  (703695856886807200, [0x51f8]);
  (704412705834668400, [0x53ec63aa66dd]);
  (705134730632017100, [0x535a54fa62f775977642]);
  (705862006564925100, [0x60e961f2640f]);
  (706594610574132350, [0x85c9]);
  (707332621303894600, [0x6e32795b]);
  (708825186325562200, [0x98fc9972]);
  (709579906889100500, [0x6cca797779b18af18bb3]);
  (711878858711570400, [0x59606eba935b953b]);
  (712657072755775900, [0x8f1f8f8d]);
  (713441390501878500, [0x8e1e]);
  (714231908452589800, [0x7518]);
  (715028725417507400, [0x77bb942b954c]);
  (715831942587233900, [0x507f511f61c88acd8be4]);
  (718281044588063460, [0x96689695]);
  (721642705667962000, [0x5bd0]);
  (722501080037101100, [0x5b5a5de15fe0]);
  (725121317276503500, [0x7b1e]);
  (726010212018228100, [0x98e89957]);
  (726907079016504200, [0x4ffe8a7c8bd9]);
  (728725310924823200, [0x77298574860a]);
  (730577215701547000, [0x5146]);
  (731516189736530900, [0x5208615161fe]);
  (732464064131985300, [0x533f8aed8c159cf49e23]);
  (733421009233600300, [0x6fe18210]);
  (736348047463611600, [0x65ab]);
  (737343080548928400, [0x8a628be2904f]);
  (739363351280680400, [0x95e19610]);
  (740389001297399300, [0x98399893]);
  (741425280000954000, [0x6b936bae]);
  (742472409987683500, [0x73cd]);
  (744600149832412000, [0x6177]);
  (746774148496052600, [0x6d85]);
  (748996462174523600, [0x6467]);
  (750126417699916900, [0x4f8d]);
  (751269287282279200, [0x8b4f8ba5]);
  (752425369522386860, [0x8df58e10]);
  (753594973498705900, [0x4fae65556bb46bc6]);
  (754778419263406250, [0x9a019a8b]);
  (755976038368077800, [0x5bdf]);
  (757188174421312250, [0x8b928c17]);
  (759657435680349400, [0x8af78bbd]);
  (760915313901035400, [0x52c9980c9882]);
  (762189216478778400, [0x532e53315b095ef660bc]);
  (764786765119104500, [0x6c9081ba]);
  (766111287794106600, [0x66646cf370ab7948]);
  (767453589827320600, [0x8e48]);
  (768814155032898500, [0x8aa88bf2]);
  (770193487246132100, [0x5f1b6d748ac98bff]);
  (773010574942801650, [0x520a]);
  (774449448688011600, [0x91ca91cb]);
  (781971790811770400, [0x592d8b2b8c2a]);
  (785146660643228400, [0x5c79]);
  (788425642925527550, [0x5fdd]);
  (791815798093095700, [0x9738]);
  (793554972364282600, [0x51cb531d56a356c25a1b5a317dd87f04]);
  (795324930074222600, [0x5a296035801880c181058892]);
  (797126780624490500, [0x632f663566b16cef]);
  (798961694491310100, [0x5f115f12]);
  (800830907792525400, [0x535c6ce39010]);
  (802735727289594800, [0x730e737582129b3b]);
  (804677535875305000, [0x555c]);
  (806657798604923000, [0x6b3a]);
  (808678069336675000, [0x4f885986599d98379894]);
  (810739998056948400, [0x56ff618e62926ed48385849e9701973d]);
  (814995959498828200, [0x5f8b8046]);
  (817193850170705500, [0x56328b058bcc]);
  (819441135755911500, [0x6fef9645969b]);
  (821740087578381300, [0x6e89766b767281fb8cbd8d3b916c]);
  (824093137319400700, [0x5556]);
  (826502892477306800, [0x4e735d078f2f8f91]);
  (828972153736344000, [0x4e01]);
  (831503934534773000, [0x5f8777688b198c268fb1]);
  (834101483175099000, [0x556e56d37e088426]);
  (836768307883315100, [0x537162ef6b8377dc]);
  (842325292998796200, [0x675c6db5]);
  (845224046686121400, [0x5951601660ee619a6b876ba46c70]);
  (848209343001089500, [0x4eab]);
  (851286508867765000, [0x76f280838085]);
  (854461378699223000, [0x61a995a19602]);
  (857740360981522000, [0x6602]);
  (861130516149090200, [0x5f255f4c668c8cbf8d38]);
  (864639648130217300, [0x6b3d844689bd89c894a697a0]);
  (868276412547304800, [0x612461a48d0a8d5e]);
  (875972516660917600, [0x5f08782d]);
  (880054716112943000, [0x8afe8bfa8cab8d2f]);
  (884310677554822500, [0x59d47e418ca28d21]);
  (888755853811906000, [0x783a792a8a898b7d929894ed99129981]);
  (893407855375395200, [0x5b5564527a14902d]);
  (898286871792338500, [0x4e605e7d64b764f77fd2]);
  (903416201231093500, [0x4f2b4f47541d55bb62896da46ecc]);
  (914538764742116000, [0x773a]);
  (920601226923759500, [0x5f71836b852d]);
  (927055079037516600, [0x65e6809684038944]);
  (933954366186211800, [0x6155644864ef725f7d9c7efc8b028c13925a94c6]);
  (941365163401583900, [0x58fd5bff6c6176ca8a348bc9]);
  (949369434168937500, [0x5386566a62216b778000]);
  (958070571867900600, [0x590d77798cc58d459179]);
  (967601589848333000, [0x815092749451]);
  (978137641414115700, [0x51b351cc582a65566c7a76017fa17fa8898f89af89c489cf9161]);
  (989915944979754000, [0x4e3d50a85132654c65757267727e7cc58cfb8d599a649aa79e97]);
  (1003269084242206300, [0x5e055e2560b17ae38cc48d3f]);
  (1018684152224932000, [0x4ecb5339564d606f60d1899389c59068]);
  (1036916307904327500, [0x7dad7ef4]);
  (1059230663035748600, [0x52b152f553c253c36c83770477477b26]);
  (1087998870280926600, [0x52a152d960e06e146f016fa1822a9676]);
  (1128545381091743100, [0x5321609f7e697ef3810d81be88d58e2c8e93917e91c3]);
  (1197860099147737500, [0x4e4f58515a5a5fc661b677b58fc4])
].
(** prob_emit.go:88901-88901 probEmit, state 455 *)
Definition emit_455 : list (Z * list Z) := [].
(** prob_emit.go:88902-88929 probEmit, state 456 *)
Definition emit_456 : list (Z * list Z) := [
  (103361069736713530, [0x758f]);
  (174250623489521960, [0x6b3a]);
  (202491125024615660, [0x635f640d]);
  (235439045137639940, [0x6d74]);
  (251261445659129330, [0x612461a4]);
  (268018815675069200, [0x8b5a8c2d]);
  (281758802615313540, [0x8cfd8d5b]);
  (449934660016686200, [0x6028]);
  (519249378072680750, [0x796d]);
  (588564096128675200, [0x6de4]);
  (606796251808070700, [0x508d660f778e]);
  (657878814184669700, [0x8912]);
  (698425324995486200, [0x4f0f4f10673d77a5]);
  (767740043051480700, [0x604b620062738a508bc8])
].
(** prob_emit.go:88930-88930 probEmit, state 457 *)
Definition emit_457 : list (Z * list Z) := [].
(** prob_emit.go:88931-88931 probEmit, state 458 *)
Definition emit_458 : list (Z * list Z) := [].
(** prob_emit.go:88932-89517 probEmit, state 459 *)
Definition emit_459 : list (Z * list Z) := [
  (301038172597676700, [0x5a1c]);
  (314641277272882820, [0x59c6]);
  (408976265271698900, [0x8785]);
  (415773563630319500, [0x9ebd]);
  (420790289502121400, [0x87ee]);
  (429872156903924300, [0x97af97c9]);
  (432367830101311000, [0x4fc5]);
  (435670882668959200, [0x7e7e7f31]);
  (450961649827725300, [0x827f]);
  (451835017824600800, [0x65936595]);
  (455862407738394700, [0x7da37efb]);
  (456320074441135900, [0x5676]);
  (460058827648298000, [0x82f7]);
  (463942810979924400, [0x4fdf]);
  (466449207846246000, [0x6c326c33]);
  (473820965435902800, [0x4e8d]);
  (475473895631023800, [0x9d519e43]);
  (476031000135969300, [0x96bd96cb]);
  (476591225690836300, [0x72fb]);
  (478864050798591900, [0x55e6]);
  (481189737015018700, [0x86a7]);
  (481779709227737500, [0x867c]);
  (482970199478369400, [0x9170]);
  (484175033329986800, [0x87c6]);
  (486629144221598500, [0x70ef]);
  (491074320478682000, [0x690b]);
  (498485117694054100, [0x936a]);
  (502044212204324400, [0x4fc14fe3]);
  (506489388461407800, [0x69246b0f]);
  (508788340283877600, [0x5a9b]);
  (511938206989814800, [0x8a758bdc]);
  (515190526160370800, [0x55375a77]);
  (516857231408891950, [0x72f2733b]);
  (517701118273478400, [0x51c7]);
  (519410561609408400, [0x4e69]);
  (520276367883719800, [0x8389]);
  (522919693590535400, [0x64de64fb]);
  (523816560588811400, [0x6aac]);
  (524721544140803250, [0x705e]);
  (528425671308838100, [0x82c184ef8deb]);
  (529373545704292500, [0x535f]);
  (534252562121235700, [0x80aa]);
  (535257595706585800, [0x7d1c7ead]);
  (536272832852987700, [0x54dd566575ea76139f6c9f89]);
  (538334761573261200, [0x747774a6]);
  (539381891559990740, [0x557e7a517a6180f19efd9efe]);
  (540440102493044400, [0x98e99968]);
  (541509631404719300, [0x736c]);
  (542590723015140800, [0x607f7946]);
  (543683630068359850, [0x828a]);
  (544788613687018300, [0x761b]);
  (545905943746830900, [0x631d64be8fe49dbb9e58]);
  (547035899272224200, [0x86c9]);
  (548178768854586450, [0x82aa87db]);
  (549334851094694100, [0x829082c4]);
  (550504455071013200, [0x8ae48c14]);
  (554097655993619600, [0x9c0d9cc5]);
  (556566917252656700, [0x89f3]);
  (557824795473342700, [0x672770ca80e7]);
  (559098698051085650, [0x4eb3]);
  (561696246691411700, [0x5511]);
  (563020769366413800, [0x73577e327f27]);
  (564363071399627900, [0x99499991]);
  (565723636605205700, [0x6e4e]);
  (567102968818439300, [0x72c872fd83c0]);
  (568501593015913300, [0x958c95ac95f69606]);
  (569920056515109000, [0x6bc2828f82be87128f4293cc9546]);
  (571358930260318900, [0x571c9d529e469f6a9f8a]);
  (572818810202434200, [0x5a55714a830f862286938816]);
  (575804106517402300, [0x880a]);
  (577330853730481100, [0x69886ada86f4881097b4]);
  (578881272384077700, [0x74417fa7]);
  (580456108080891600, [0x676969aa9f19]);
  (582056142215535650, [0x5a325aa782e39d899e51]);
  (583682194302713700, [0x82b786d19b43]);
  (585335124497834800, [0x828e]);
  (587015836329472850, [0x55777db87eb6]);
  (588725279665402900, [0x5a0c7f618dce]);
  (590464453936589800, [0x7a7887609642]);
  (592234411646529950, [0x8788]);
  (594036262196797700, [0x66b986a886c49d429e3a]);
  (595871176063617400, [0x5885785778fd86de88b7]);
  (597740389364832700, [0x54d256606e43809386059d309e39]);
  (599645208861902100, [0x93069516]);
  (601587017447612300, [0x72c1736f883c97b29b499b4e]);
  (603567280177230300, [0x74367a9595b6960a]);
  (605587550908982100, [0x992e]);
  (607649479629255750, [0x54b45a055a6d90269090]);
  (609754820549039000, [0x6d33]);
  (611905441071135300, [0x83ea97859aba]);
  (614103331743012900, [0x86f38784977c9d239e2a]);
  (616350617328218700, [0x5776]);
  (618649569150688600, [0x54645d585db87817786885568df98e9a]);
  (621002618891708000, [0x549b56805ccb7dd97f02]);
  (623412374049614000, [0x553f5627824b9a439aa0]);
  (625881635308651200, [0x4fdc530f5b848dcf8efb8f72]);
  (628413416107080200, [0x556165ce83d4867a]);
  (631010964747406260, [0x53105d6f82c885f687ea95bc960f]);
  (633677789455622400, [0x83aa881b9abc9b4d]);
  (636417686874433800, [0x4ec37fb086f186fa]);
  (639234774571103400, [0x54905549]);
  (645118824573396800, [0x789c78e38234840493f594e79d989e55]);
  (648195990440072200, [0x69d46fde80ec86a3]);
  (651370860271530200, [0x863c87c088df]);
  (654649842553829300, [0x507b50c269ff8713]);
  (658039997721397450, [0x5ad25b218d73]);
  (661549129702524500, [0x56ea56f186aa]);
  (665185894119611900, [0x5d6b69896af880ad]);
  (668959926917896650, [0x568571b37d077ea586f89b48]);
  (672881998233224800, [0x501c60da694275eb76479ac59acf]);
  (676964197685250300, [0x558f5a065b08680c6ae8826883b3849485b79d269e2f]);
  (681220159127129850, [0x5a6a7ba282d384ff]);
  (685665335384213200, [0x5c2c770880dd822883a88dde8e929de59df49e369e47]);
  (690317336947702600, [0x54168169823388e289338dda97d997ea]);
  (695196353364645800, [0x5432554167776c13855e86ba]);
  (700325682803400800, [0x5d2661008438857a8dc48e4c]);
  (705732404930428400, [0x54f370bb74837df27f0890059dbf9def9e5a9e69]);
  (711448246314423200, [0x5240527454e9557655b16332837d840687829987]);
  (717510708496066750, [0x58bc6b3776bf7d5d7ed483dd88bc]);
  (723964560609823900, [0x67fd698d6a89728f745a786d840b]);
  (730863847758519000, [0x506c50af5f7365ef69397a807b45]);
  (738274644973891200, [0x50ec541254a45f955fa0825f829883e1848c851e88e3895d]);
  (746278915741244800, [0x73a273d174cf83a9845c8f548f9a9d619e49]);
  (754980053440207750, [0x5fe185649d939e4b]);
  (764511071420640200, [0x549956a86a7c6ade738e834783e5870a8722]);
  (775047122986422900, [0x4f274fd05025509650ba730a822d82d284768627966796899c379ca6]);
  (786825426552061200, [0x5fa872b4]);
  (800178565814513500, [0x553c6a8e6c8c72f772fa7610835c83b6840f84fd853b859f870d8c4999d89a80]);
  (815593633797239400, [0x573e681d81fe8539861e878b8a07]);
  (833825789476634900, [0x502a5f8960296a976bf56bff6edf70697640791e812c8459861787bd9062]);
  (856140144608055700, [0x50f3552355885c965d87620b621475b87913833a84c18803891b893889a689ce8e8794de]);
  (884908351853233900, [0x512159a45c1c5fd15fea6c0d6f466f4b7020703275ac75c3762976677bcc7dae8035831b8473876487b58e8f8eaa9c7a; 0x9ca1]);
  (925454862664050300, [0x4ef3525e528256f5570757e460dd6b8d6c076c0c6f2d6f367321738076057649776578a178f279347be5804d8079836c; 0x84e38552857787638c858e858f648f73918d9e1d9e42]);
  (994769580720044800, [0x4ef551f0564c568657045f8a67c368336a286bf9721d72b872f4730173417762792480258071827d84a184e0863a871e; 0x8734876587e588698b268e708e958f0a8f7e9622972a980f98839c129cc6])
].
(** prob_emit.go:89518-89557 probEmit, state 460 *)
Definition emit_460 : list (Z * list Z) := [
  (145080580577786080, [0x5427]);
  (162035931541879050, [0x5462]);
  (197367079181834230, [0x541755ce]);
  (204206423274635900, [0x554a]);
  (255355888711200200, [0x5440]);
  (312380519970170600, [0x5566]);
  (314172040475493500, [0x54e9]);
  (360946099044631300, [0x4e489ebc]);
  (363755491769960900, [0x561b]);
  (398966119693315200, [0x77e3]);
  (489031788619497650, [0x54c7]);
  (492269228285399300, [0x4e4e]);
  (501871802619511200, [0x5662]);
  (509222048818803800, [0x54df55b2]);
  (520514247654644100, [0x5475]);
  (548087847797982100, [0x54c9]);
  (560871184948970600, [0x516e]);
  (569159950929547300, [0x5426]);
  (570715192230295800, [0x54365450]);
  (575861021957843400, [0x5514]);
  (612523549437033500, [0x54575504]);
  (637859282428104100, [0x55bd560d]);
  (645506318827287900, [0x54555614]);
  (651651596748654250, [0x6b246b5f]);
  (658954110250143200, [0x5575]);
  (666015866971538500, [0x5443]);
  (716827793188363300, [0x8036]);
  (741190001454138300, [0x561e]);
  (778346357097386700, [0x7317]);
  (986290511265370300, [0x7109]);
  (1037373073641969300, [0x54af])
].
(** prob_emit.go:89558-89560 probEmit, state 461 *)
Definition emit_461 : list (Z * list Z) := [
  (0, [0x5c14723e])
].
(** prob_emit.go:89561-89561 probEmit, state 462 *)
Definition emit_462 : list (Z * list Z) := [].
(** prob_emit.go:89562-89563 probEmit, state 463 *)
Definition emit_463 : list (Z * list Z) := [
  (0, [0x5189])
].
(** prob_emit.go:17-89564 probEmit *)
Definition pos_emit_tab : list (Z * list (Z * list Z)) := [
  (100, emit_100);
  (101, emit_101);
  (102, emit_102);
  (103, emit_103);
  (104, emit_104);
  (105, emit_105);
  (106, emit_106);
  (107, emit_107);
  (108, emit_108);
  (109, emit_109);
  (110, emit_110);
  (111, emit_111);
  (112, emit_112);
  (113, emit_113);
  (114, emit_114);
  (115, emit_115);
  (116, emit_116);
  (117, emit_117);
  (118, emit_118);
  (119, emit_119);
  (120, emit_120);
  (121, emit_121);
  (122, emit_122);
  (123, emit_123);
  (124, emit_124);
  (125, emit_125);
  (126, emit_126);
  (127, emit_127);
  (128, emit_128);
  (129, emit_129);
  (130, emit_130);
  (131, emit_131);
  (132, emit_132);
  (133, emit_133);
  (134, emit_134);
  (135, emit_135);
  (136, emit_136);
  (137, emit_137);
  (138, emit_138);
  (139, emit_139);
  (140, emit_140);
  (141, emit_141);
  (142, emit_142);
  (143, emit_143);
  (144, emit_144);
  (145, emit_145);
  (146, emit_146);
  (147, emit_147);
  (148, emit_148);
  (149, emit_149);
  (150, emit_150);
  (151, emit_151);
  (152, emit_152);
  (153, emit_153);
  (154, emit_154);
  (155, emit_155);
  (156, emit_156);
  (157, emit_157);
  (158, emit_158);
  (159, emit_159);
  (160, emit_160);
  (161, emit_161);
  (162, emit_162);
  (163, emit_163);
  (200, emit_200);
  (201, emit_201);
  (202, emit_202);
  (203, emit_203);
  (204, emit_204);
  (205, emit_205);
  (206, emit_206);
  (207, emit_207);
  (208, emit_208);
  (209, emit_209);
  (210, emit_210);
  (211, emit_211);
  (212, emit_212);
  (213, emit_213);
  (214, emit_214);
  (215, emit_215);
  (216, emit_216);
  (217, emit_217);
  (218, emit_218);
  (219, emit_219);
  (220, emit_220);
  (221, emit_221);
  (222, emit_222);
  (223, emit_223);
  (224, emit_224);
  (225, emit_225);
  (226, emit_226);
  (227, emit_227);
  (228, emit_228);
  (229, emit_229);
  (230, emit_230);
  (231, emit_231);
  (232, emit_232);
  (233, emit_233);
  (234, emit_234);
  (235, emit_235);
  (236, emit_236);
  (237, emit_237);
  (238, emit_238);
  (239, emit_239);
  (240, emit_240);
  (241, emit_241);
  (242, emit_242);
  (243, emit_243);
  (244, emit_244);
  (245, emit_245);
  (246, emit_246);
  (247, emit_247);
  (248, emit_248);
  (249, emit_249);
  (250, emit_250);
  (251, emit_251);
  (252, emit_252);
  (253, emit_253);
  (254, emit_254);
  (255, emit_255);
  (256, emit_256);
  (257, emit_257);
  (258, emit_258);
  (259, emit_259);
  (260, emit_260);
  (261, emit_261);
  (262, emit_262);
  (263, emit_263);
  (300, emit_300);
  (301, emit_301);
  (302, emit_302);
  (303, emit_303);
  (304, emit_304);
  (305, emit_305);
  (306, emit_306);
  (307, emit_307);
  (308, emit_308);
  (309, emit_309);
  (310, emit_310);
  (311, emit_311);
  (312, emit_312);
  (313, emit_313);
  (314, emit_314);
  (315, emit_315);
  (316, emit_316);
  (317, emit_317);
  (318, emit_318);
  (319, emit_319);
  (320, emit_320);
  (321, emit_321);
  (322, emit_322);
  (323, emit_323);
  (324, emit_324);
  (325, emit_325);
  (326, emit_326);
  (327, emit_327);
  (328, emit_328);
  (329, emit_329);
  (330, emit_330);
  (331, emit_331);
  (332, emit_332);
  (333, emit_333);
  (334, emit_334);
  (335, emit_335);
  (336, emit_336);
  (337, emit_337);
  (338, emit_338);
  (339, emit_339);
  (340, emit_340);
  (341, emit_341);
  (342, emit_342);
  (343, emit_343);
  (344, emit_344);
  (345, emit_345);
  (346, emit_346);
  (347, emit_347);
  (348, emit_348);
  (349, emit_349);
  (350, emit_350);
  (351, emit_351);
  (352, emit_352);
  (353, emit_353);
  (354, emit_354);
  (355, emit_355);
  (356, emit_356);
  (357, emit_357);
  (358, emit_358);
  (359, emit_359);
  (360, emit_360);
  (361, emit_361);
  (362, emit_362);
  (363, emit_363);
  (400, emit_400);
  (401, emit_401);
  (402, emit_402);
  (403, emit_403);
  (404, emit_404);
  (405, emit_405);
  (406, emit_406);
  (407, emit_407);
  (408, emit_408);
  (409, emit_409);
  (410, emit_410);
  (411, emit_411);
  (412, emit_412);
  (413, emit_413);
  (414, emit_414);
  (415, emit_415);
  (416, emit_416);
  (417, emit_417);
  (418, emit_418);
  (419, emit_419);
  (420, emit_420);
  (421, emit_421);
  (422, emit_422);
  (423, emit_423);
  (424, emit_424);
  (425, emit_425);
  (426, emit_426);
  (427, emit_427);
  (428, emit_428);
  (429, emit_429);
  (430, emit_430);
  (431, emit_431);
  (432, emit_432);
  (433, emit_433);
  (434, emit_434);
  (435, emit_435);
  (436, emit_436);
  (437, emit_437);
  (438, emit_438);
  (439, emit_439);
  (440, emit_440);
  (441, emit_441);
  (442, emit_442);
  (443, emit_443);
  (444, emit_444);
  (445, emit_445);
  (446, emit_446);
  (447, emit_447);
  (448, emit_448);
  (449, emit_449);
  (450, emit_450);
  (451, emit_451);
  (452, emit_452);
  (453, emit_453);
  (454, emit_454);
  (455, emit_455);
  (456, emit_456);
  (457, emit_457);
  (458, emit_458);
  (459, emit_459);
  (460, emit_460);
  (461, emit_461);
  (462, emit_462);
  (463, emit_463)
].
