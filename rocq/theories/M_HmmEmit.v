(** Data of hmm/prob_emit.go, generated by tools/emit_tab.py. *)
From Verif Require Import Base.
Local Open Scope Z_scope.

(** prob_emit.go:8-6866 loadDefEmit, state B *)
Definition emit_B : list (Z * list Z) := [
  (365449787504494330, [0x4e00]);
  (427426205593642100, [0x4e0d]);
  (459674331528208600, [0x4e2d]);
  (461510371683005900, [0x5927]);
  (467333845039487200, [0x4eba]);
  (467550410811487500, [0x8fd99019]);
  (500584213387949400, [0x53d1767c]);
  (503448640876809900, [0x81ea]);
  (503742205017565000, [0x56fd570b]);
  (515740047639546900, [0x5730]);
  (524342737462913600, [0x5168]);
  (528616894750190450, [0x5de5]);
  (530188803277898700, [0x516c]);
  (535605669160454000, [0x4e3b]);
  (540104509995808500, [0x53ef]);
  (540624001944627700, [0x6709]);
  (543643691016208100, [0x751f]);
  (544838039483371900, [0x51fa]);
  (549465846570361800, [0x4ee5]);
  (550101035753386200, [0x8fdb9032]);
  (556330060718186700, [0x6211]);
  (556830278573453600, [0x5929]);
  (557526684086332200, [0x5b665b78]);
  (561335598626844500, [0x6210]);
  (561601490272121800, [0x4e245169]);
  (561973459279448100, [0x7d937ecf]);
  (563400690986179600, [0x9ad8]);
  (565383258329144500, [0x5206]);
  (565450082048129400, [0x65f66642]);
  (568148150673928200, [0x4e4b]);
  (569821554817108700, [0x7b2c]);
  (570844206697456200, [0x5f00958b]);
  (570915676111590400, [0x653f]);
  (571868402068418650, [0x6b66]);
  (572344111101396200, [0x91cd]);
  (572387634700034000, [0x6587]);
  (573955258332572800, [0x4e0a]);
  (575219830550250400, [0x5b9e5be6]);
  (576624473387374350, [0x5efa]);
  (579089145729402150, [0x65b9]);
  (579545019652033600, [0x5c0f]);
  (580910429441557800, [0x76f8]);
  (581474966239189400, [0x90a3]);
  (582181647741067550, [0x5404]);
  (582279721304094800, [0x4ed6]);
  (583402383961028550, [0x6c926ca1]);
  (584043349937450400, [0x5982]);
  (584057617744207000, [0x4f5c]);
  (585299551244019600, [0x738b]);
  (586584276531628800, [0x673a6a5f]);
  (588734374414291600, [0x5176]);
  (590117340858630100, [0x6700]);
  (590614530271632350, [0x884c]);
  (591079211067636700, [0x5f537576]);
  (591141550777315100, [0x540c]);
  (592700585210238200, [0x5317]);
  (593208585054989100, [0x4e09]);
  (598036461941413040, [0x63d0]);
  (598149048152114000, [0x5e73]);
  (598351082660660300, [0x674e]);
  (599708909723964400, [0x4e0b]);
  (600092237257313800, [0x73b073fe]);
  (600279059184181600, [0x957f]);
  (600400200808740500, [0x4e1c6771]);
  (600734400004194500, [0x5341]);
  (601998299238218900, [0x901a]);
  (603774920770726000, [0x591a]);
  (603896646307126400, [0x65e07121]);
  (605157356386219700, [0x6240]);
  (605302202717018800, [0x517395dc]);
  (605664606593742600, [0x603b7e3d]);
  (606179529034766200, [0x9ec4]);
  (608537877052893200, [0x897f]);
  (609107121210114800, [0x5fc3]);
  (609323394191488100, [0x6c34]);
  (609411347831152700, [0x90e8]);
  (610374695564744300, [0x77f3]);
  (610467560863678500, [0x56e0]);
  (610518009592909500, [0x539f]);
  (611049263546903400, [0x7279]);
  (611527000228835600, [0x8001]);
  (611720348571089300, [0x793e]);
  (613379080515943500, [0x51e05e7e]);
  (613533611517846900, [0x57fa]);
  (613670564071504900, [0x62186230]);
  (613788493464671800, [0x5f205f35]);
  (613932665837388100, [0x672c]);
  (614205100580314700, [0x4e16]);
  (614610999083250050, [0x4ea77522]);
  (615078299372718300, [0x5357]);
  (615222952786169100, [0x8cc78d44]);
  (615293965132769500, [0x6b63]);
  (615577123018481300, [0x6cd5]);
  (616692412766440000, [0x7f8e]);
  (617075937270484700, [0x6e56]);
  (617273224984126840, [0x660e]);
  (618288505622489500, [0x65b0]);
  (619269259138938900, [0x8fc7904e]);
  (619440432442890400, [0x65e5]);
  (620015569257841900, [0x519b8ecd]);
  (621023818367863440, [0x554f95ee]);
  (621838396331739400, [0x6559]);
  (622119853841019100, [0x5bf95c0d]);
  (622231763250849750, [0x57ce]);
  (622478405677278800, [0x4fdd]);
  (623684464066174200, [0x56de]);
  (623808755469691350, [0x5236]);
  (624897579206930600, [0x4e8b]);
  (625397146007957900, [0x753596fb]);
  (626004590203539500, [0x5916]);
  (626920384602161500, [0x8868]);
  (627279327595914900, [0x8d77]);
  (628153053721337250, [0x6d77]);
  (628898738505161700, [0x6c11]);
  (628992940311541900, [0x77e5]);
  (629135209447955200, [0x770b]);
  (629601799463488000, [0x98189886]);
  (629675755639787750, [0x7d507ed3]);
  (629707927566841900, [0x6539]);
  (630677929999130200, [0x4ec0]);
  (630964258040131650, [0x4e07842c]);
  (631308610435501000, [0x5e74]);
  (631493515376708550, [0x52a0]);
  (631792047542980200, [0x5f62]);
  (631987724623233100, [0x8aaa8bf4]);
  (632368664900358300, [0x9762]);
  (633204878958068600, [0x91d1]);
  (633937311455966000, [0x4e3a70ba]);
  (634450525717311600, [0x589e]);
  (634600781095261900, [0x898f89c4]);
  (635122515517228600, [0x7d447ec4]);
  (635398030581220400, [0x5df2]);
  (636930542147540400, [0x53cd]);
  (637110557081998800, [0x9648]);
  (637395086845945900, [0x4e135c08]);
  (638115223174023500, [0x4efb]);
  (638353502072942600, [0x519c8fb2]);
  (638458805884140700, [0x624b]);
  (639163679458812100, [0x51675185]);
  (640800400550570500, [0x5e02]);
  (641126295022425400, [0x5c71]);
  (641942980865797300, [0x51b36c7a]);
  (643840947201633600, [0x60c5]);
  (643894701176551450, [0x56db]);
  (645007760685509100, [0x53ea]);
  (645184150740813400, [0x6bd4]);
  (645193541911241900, [0x4ee3]);
  (645428608261149300, [0x7814]);
  (645488874186360300, [0x4e8c]);
  (645919323423719300, [0x8eab]);
  (646222503251963000, [0x5b89]);
  (646621826834943700, [0x8a8d8ba4]);
  (647692625983073100, [0x5b8c]);
  (647964540834969800, [0x7687]);
  (648018626213920000, [0x6307]);
  (648613560384770300, [0x5148]);
  (648769175191796300, [0x4ea4]);
  (648819802188749600, [0x6c5f]);
  (649731567456353300, [0x4f866765]);
  (649898776772475800, [0x524d]);
  (649989383251128100, [0x9a6c]);
  (650880107851214700, [0x804c8077]);
  (651085105484927100, [0x5e9461c9]);
  (651344441729859800, [0x54689031]);
  (651472362436476350, [0x79d1]);
  (651586429748551200, [0x540e]);
  (652035958902091800, [0x4f1a6703]);
  (652398657776367800, [0x610f]);
  (652414808299276050, [0x76ee]);
  (653327500975019600, [0x6e05]);
  (653398838557662700, [0x5408]);
  (653617243878041300, [0x8a2d8bbe]);
  (654345295411741650, [0x767e]);
  (654503912796088000, [0x52185289]);
  (654799157103093500, [0x53866b77]);
  (655234318799371600, [0x540d]);
  (656129221357935300, [0x5e7f5ee3]);
  (656238240614822900, [0x8fd0904b]);
  (657102003964366400, [0x89e3]);
  (657142213477632400, [0x6253]);
  (657772862458621200, [0x53c253c3]);
  (658069386520460700, [0x4f539ad4]);
  (658090753128806600, [0x76f4]);
  (658174126550342800, [0x65706578]);
  (658611370045304000, [0x592a]);
  (658675832111611500, [0x6b64]);
  (659502470391354100, [0x53d88b8a]);
  (660176591154121100, [0x90099078]);
  (660204960258175100, [0x6280]);
  (660956390518872100, [0x4e94]);
  (662030861414844500, [0x59d4]);
  (663585482572891100, [0x4eca]);
  (663741377815770000, [0x7d717edf]);
  (665208240851817700, [0x7406]);
  (665244959996674200, [0x8054806f]);
  (666167348125612800, [0x583162a5]);
  (666229916924363400, [0x80fd]);
  (666466641877094700, [0x63a5]);
  (667658746125876950, [0x8a188bb0]);
  (668193954354067450, [0x767d]);
  (668449599998197550, [0x800c]);
  (668463821714782700, [0x4f2050b3]);
  (669062967586986000, [0x8003]);
  (670103320235625400, [0x7cbe]);
  (670746347084453000, [0x6295]);
  (671359368367826600, [0x6768694a]);
  (671750547782105600, [0x5546]);
  (672086715544428600, [0x5fc5]);
  (672755037000160300, [0x6839]);
  (673119435464887000, [0x5229]);
  (673246170320263300, [0x7ba1]);
  (673335727020611900, [0x8981]);
  (673769718672784550, [0x5973]);
  (674504803958235500, [0x5177]);
  (675037532605624100, [0x4f01]);
  (675176863082001500, [0x4ece5f9e]);
  (675237722726329600, [0x53e4]);
  (675341777046992850, [0x5bb6]);
  (675425606801301900, [0x773c]);
  (675550211071769100, [0x6d3b]);
  (675720840020759900, [0x9996]);
  (675751431195444600, [0x82f1]);
  (675884101198320600, [0x6d41]);
  (676198619133229600, [0x600e]);
  (676206302673808950, [0x8a088ba1]);
  (676342142659840000, [0x8f498f6c]);
  (676385753091120100, [0x6bcf]);
  (677531542509387800, [0x535555ae8fd89084]);
  (678919310283055800, [0x771f]);
  (679209219033136600, [0x96c6]);
  (679211858426076400, [0x52a852d5]);
  (679283148381173000, [0x5e38]);
  (679285789726146000, [0x611f]);
  (679587361300131800, [0x8a318bb8]);
  (679637711766937400, [0x5305]);
  (680291917222268500, [0x4fe1]);
  (680505592517242100, [0x6536]);
  (680722404925679400, [0x5f97]);
  (680810870851963700, [0x63a8]);
  (681114393829044100, [0x597d]);
  (681491722255603100, [0x98a898ce]);
  (681756701861220550, [0x7531]);
  (682196274935657400, [0x7528]);
  (682305109599353800, [0x968f96a8]);
  (684610076091922400, [0x7de87f16]);
  (685006447860001000, [0x6d88]);
  (686145652619359300, [0x4f7f]);
  (688001576149915600, [0x6df1]);
  (689166874280302400, [0x795e]);
  (689622762150151800, [0x54335434]);
  (690970368242516100, [0x8abf8c03]);
  (691550960289220200, [0x9700]);
  (691850012517237900, [0x7a7a]);
  (692041876352813500, [0x521b5275]);
  (692979491566755700, [0x6cb3]);
  (693228180015672700, [0x5f375f3a]);
  (693669453423026100, [0x6c146c23]);
  (693684704532573800, [0x80e1]);
  (694330430767508200, [0x7acb]);
  (694801280550292300, [0x5e725e79]);
  (694896952187865100, [0x63a191c7]);
  (695631417890927800, [0x653e]);
  (696656875510724200, [0x6c496f22]);
  (697258897722025800, [0x7a81]);
  (697956847955455000, [0x571f]);
  (698065148915266600, [0x4e2556b4]);
  (698579584571215100, [0x963f]);
  (698910089131720000, [0x5f88]);
  (699009775609948700, [0x5f71]);
  (699341707401476500, [0x6574]);
  (699797893384374600, [0x6761689d]);
  (699862769473324500, [0x5b98]);
  (701623920102365900, [0x5f15]);
  (701769336216297650, [0x67436b0a]);
  (702419680269697300, [0x4ef750f9]);
  (703275529302249100, [0x53cc96d9]);
  (703800676944186400, [0x5e085e2b]);
  (703851317548904600, [0x652f]);
  (703932395895294100, [0x5171]);
  (704033836358446000, [0x65c5]);
  (704855907704544300, [0x4f46]);
  (705173634009992500, [0x9752]);
  (705204435358650600, [0x66f4]);
  (705667597692758800, [0x4e3e8209]);
  (706902843404360500, [0x7d057ea2]);
  (707591067749167650, [0x59048655]);
  (708386482494371400, [0x4f18512a]);
  (708676655740194050, [0x975e]);
  (708683743665915600, [0x5149]);
  (708896615384702140, [0x751a]);
  (709430785665932200, [0x534e83ef]);
  (710000138895000900, [0x958095e8]);
  (710003730010581350, [0x706b]);
  (710579975932736400, [0x4f55]);
  (710724557755074100, [0x82cf8607]);
  (711141398708792100, [0x5c31]);
  (711490705908196800, [0x53d6]);
  (711523516101524500, [0x534a]);
  (711698685841958600, [0x60f3]);
  (712863305261807700, [0x601d]);
  (713266912348865500, [0x5343]);
  (713541852146803500, [0x96be96e3]);
  (713709415627390500, [0x7cfb]);
  (714221288814383400, [0x5de6]);
  (714236273455154700, [0x90029069]);
  (715026137267534200, [0x533b91ab]);
  (715165952507496350, [0x7fa4]);
  (715328686473433900, [0x68c06aa2]);
  (715719571394576200, [0x53d7]);
  (715769015153309100, [0x7701]);
  (715875592508098800, [0x5c11]);
  (715894636137110300, [0x6731]);
  (716736166559466100, [0x4e2a500b]);
  (717024678232733950, [0x8ca18d22]);
  (717646842349603700, [0x943594c1]);
  (717759321756400900, [0x90ed]);
  (717770964781271900, [0x98109884]);
  (717844735435546400, [0x79f07a31]);
  (718405615615898900, [0x4f9d]);
  (718710744358680650, [0x7db27f51]);
  (718993230422236100, [0x867d96d6]);
  (719005018009919900, [0x4f4d]);
  (719509253862604300, [0x8fde9023]);
  (719588270894885300, [0x7269]);
  (719639665467959060, [0x80a1]);
  (719738575487694200, [0x5ba3]);
  (719861359937222500, [0x663e986f]);
  (719904964877163700, [0x8346834a]);
  (719984295332317800, [0x98db98de]);
  (720361976819689000, [0x73af74b0]);
  (720649172868707500, [0x8ca08d1f]);
  (720905152530122500, [0x529e8fa6]);
  (721254179021282900, [0x6027]);
  (721447268103359300, [0x72ec7368]);
  (721556044779475900, [0x89c089c2]);
  (721862867789658500, [0x542c807d]);
  (721911399700341700, [0x7136]);
  (721951860959238800, [0x822a]);
  (722097657194363400, [0x516b]);
  (722105763221198800, [0x4ebf5104]);
  (722341124284276150, [0x670d]);
  (722564824375528700, [0x548c]);
  (722776783856506460, [0x6797]);
  (722895187463276000, [0x4eb289aa]);
  (723140606434624300, [0x52b352de]);
  (724157306212973850, [0x70ed71b1]);
  (724713231972638200, [0x9053]);
  (724879780705811250, [0x58f08072]);
  (724929799463887900, [0x8d75]);
  (725121770142991900, [0x9ed1]);
  (725142658744158200, [0x8d70]);
  (725309924819787400, [0x57f76267]);
  (725569741418192600, [0x662f]);
  (725578133848225600, [0x6e38904a]);
  (725620106566575300, [0x7b807c21]);
  (725750334062977750, [0x4e8e]);
  (726391334866124600, [0x4f60]);
  (727416156201212700, [0x5f90]);
  (727424705036439200, [0x5ba15be9]);
  (727874548350125400, [0x5931]);
  (728646120530661700, [0x62db]);
  (729812568296449200, [0x7a0b]);
  (729856356885842600, [0x88c588dd]);
  (729922075742947400, [0x5b595b6b]);
  (729970297035774000, [0x5316]);
  (730141451050302150, [0x5bfc5c0e]);
  (730599299087611300, [0x6216]);
  (730811322666310000, [0x928094f6]);
  (731068119052890700, [0x9769]);
  (731334466260554450, [0x7f57]);
  (731976608935320700, [0x9632]);
  (732532888688413400, [0x5370]);
  (732672443486311900, [0x56fe5716]);
  (732983766407917800, [0x8d85]);
  (733463926779615250, [0x51c66e96]);
  (734119935692270100, [0x666e]);
  (734183944472802300, [0x737283b7]);
  (734215964233842500, [0x6ee16eff]);
  (734518369962580500, [0x6297]);
  (735458902483651040, [0x8fbe9054]);
  (735597965223347000, [0x534f5354]);
  (736881799761224000, [0x4e6666f8]);
  (737164113033940300, [0x82b1]);
  (737281979198784400, [0x65e9]);
  (737992108585491500, [0x5728]);
  (738163292650119200, [0x6ce8]);
  (738172811473599700, [0x5b58]);
  (738396765061116200, [0x4e265e76]);
  (738449252238749600, [0x7b49]);
  (738649911615236500, [0x786e78ba]);
  (738688178142059500, [0x5934982d]);
  (738692962487681550, [0x68076a19]);
  (738855766584165900, [0x6bdb]);
  (738975644802267100, [0x6b276b50]);
  (738999637700484300, [0x6545]);
  (739201405639803200, [0x7bc48303]);
  (739572374195699660, [0x671f]);
  (739775302225911350, [0x5b8b]);
  (740041665557477750, [0x5ba2]);
  (740581405750861800, [0x575a5805]);
  (741217260179832850, [0x4fee]);
  (741374400263238800, [0x7e7c7ee7]);
  (741689423166013400, [0x5225522b]);
  (743973242198220100, [0x5df4]);
  (744271274899311400, [0x53e3]);
  (744397828359721000, [0x590d]);
  (744438359315793200, [0x529f]);
  (744473837383117500, [0x9020]);
  (744494116217154000, [0x518d]);
  (744722536914933300, [0x6279]);
  (744814051487388600, [0x76d176e3]);
  (745206478665820700, [0x6f14]);
  (745262665616602950, [0x529b]);
  (745451890108587300, [0x5fb7]);
  (745457009256762150, [0x67816975]);
  (746667334849593400, [0x5230]);
  (747061915082218300, [0x5c45]);
  (747573024988030700, [0x898b89c1]);
  (747583483051207000, [0x5b69]);
  (747698593988990900, [0x7dad7ef4]);
  (747719537493963000, [0x5c01]);
  (748249819890603200, [0x53f0]);
  (748349891002106500, [0x7d427ec8]);
  (748629567182400550, [0x81f3]);
  (749122218158940300, [0x9057907a]);
  (749191277100833300, [0x611b7231]);
  (749281656968225800, [0x505a]);
  (749345503738152100, [0x8f158f7b]);
  (749777538972926700, [0x5e0c]);
  (750039802617779500, [0x6728]);
  (750061242291978600, [0x7537]);
  (750534081816757200, [0x5b9a]);
  (750544854196386350, [0x521d]);
  (750593344270341000, [0x5e265e36]);
  (750614902963967600, [0x7236]);
  (750733558929563800, [0x96469678]);
  (751600773036587300, [0x671d]);
  (753158847127461900, [0x79cd7a2e]);
  (753491146945868900, [0x6fc0]);
  (753596605840553800, [0x79ef7a4d]);
  (753618821891742100, [0x5e03]);
  (753857956671885350, [0x70b99ede]);
  (753891369825841000, [0x533a5340]);
  (754002827706305100, [0x5143]);
  (754008403862661950, [0x626964f4]);
  (754086502717462800, [0x51748208]);
  (754125575029645300, [0x6d2a]);
  (754433104137791900, [0x89ba89c9]);
  (754882114265235900, [0x8fd1]);
  (755084828451439500, [0x5fae]);
  (755259717779816400, [0x6c99]);
  (755627417246567300, [0x53ca]);
  (755962349863609600, [0x53bf7e23]);
  (756104609539918900, [0x9662]);
  (756338354408466200, [0x9636968e]);
  (757037137250755800, [0x513f5152]);
  (757083130122671500, [0x5145]);
  (757428752586539200, [0x6e296eab]);
  (757787155189967500, [0x7d277dca]);
  (757874058819318000, [0x827a85dd]);
  (757937836180517350, [0x4e9a4e9e5c3d76e1]);
  (758111981461655400, [0x56e25718]);
  (758263153070187550, [0x672a]);
  (758805760661877600, [0x547d]);
  (759004870589452450, [0x623f]);
  (759040048826212900, [0x4f17773e]);
  (759657679682859400, [0x6a21]);
  (759775757391701800, [0x5bab5bae]);
  (759888060503661500, [0x5c065c07]);
  (759959053821439400, [0x559c]);
  (760083413533081500, [0x98df]);
  (760160475690485900, [0x8b498bc1]);
  (760415797504810400, [0x4e308c50]);
  (760600271953864600, [0x7d307ec6]);
  (760701580028439000, [0x7d557edd]);
  (761047993801366200, [0x6cbb]);
  (761443654050157400, [0x53f8]);
  (761762518442096900, [0x9999]);
  (762330564446223850, [0x6bd57562]);
  (762621879818839300, [0x516d]);
  (762792206522223300, [0x6838]);
  (763494821295998400, [0x8881]);
  (763851065146742700, [0x8944]);
  (763906458285564800, [0x8def]);
  (764561185763369200, [0x54ea]);
  (764734850757707800, [0x6392]);
  (765426291516627700, [0x4f4e]);
  (765482564378962300, [0x54c1]);
  (765545126943565500, [0x627f654c6575]);
  (765864806283101200, [0x653b]);
  (766015597967868900, [0x5510]);
  (766141431632390200, [0x8eca8f66]);
  (766223308506748500, [0x544a]);
  (766944191861299800, [0x6309]);
  (767039432987264800, [0x54b1]);
  (767058492102344300, [0x515a9ee8]);
  (767211095934337600, [0x62c564d47559]);
  (767529770518875100, [0x5b9d5bf6]);
  (767977627953314000, [0x5c55]);
  (768253738187482300, [0x4e5d]);
  (768260168435370600, [0x4f0a]);
  (768608017278770900, [0x5373]);
  (769450427651971100, [0x8fdc9060]);
  (769737166199686750, [0x8b708bae]);
  (770057459312671400, [0x98059879]);
  (770103299331810100, [0x53ec]);
  (770247504915268900, [0x4f3c]);
  (770457630411191500, [0x9b5a9c7c]);
  (770813221461502500, [0x8d8a]);
  (771295946816146750, [0x63a7]);
  (771382156576451500, [0x813881c9]);
  (771408697615688950, [0x75c5]);
  (771807660841872900, [0x8a9e8bed]);
  (771947674866146550, [0x590f]);
  (772067843116137000, [0x5175]);
  (772094566793474000, [0x6821]);
  (772188155943964500, [0x6c886c89]);
  (772435921162619450, [0x9010]);
  (772664139814499300, [0x836f85e5]);
  (773318111469357800, [0x51b2885d]);
  (773568695732410300, [0x4f599918]);
  (773935543969909700, [0x79bb96e2]);
  (774085387343540000, [0x6b7b]);
  (774783064592104800, [0x72b672c0]);
  (774844858682436700, [0x53e6]);
  (775209533803614200, [0x5165]);
  (775368203768951200, [0x5f80]);
  (775388918424644100, [0x767b]);
  (775887361824210900, [0x536b885b]);
  (775894302171925200, [0x79d8]);
  (775908184312573600, [0x7530]);
  (776012361840487050, [0x71df8425]);
  (776179271956432400, [0x51cf6e1b]);
  (776276765000366350, [0x53f68449]);
  (776472036699210400, [0x8a558bc4]);
  (776583791966830900, [0x5b50]);
  (776625732412014400, [0x843d]);
  (776646709232704500, [0x5217]);
  (776779664712211000, [0x5371]);
  (777003990077925500, [0x5411]);
  (777025046403674500, [0x5bb9]);
  (777355509000068600, [0x67d0]);
  (777870955860617650, [0x8a668bd5]);
  (778090650502683100, [0x5de8]);
  (778182924349596600, [0x90d1912d]);
  (778417541072339250, [0x6c38]);
  (778638441151477300, [0x6548]);
  (778666979964456500, [0x5750]);
  (778688389420381200, [0x4e86]);
  (779038727604469700, [0x5bc6]);
  (779390297473316700, [0x4e89722d]);
  (779555747282665500, [0x52dd80dc]);
  (779728682907260800, [0x7d2b]);
  (779793610947632800, [0x914d]);
  (780133366217170600, [0x9867987e]);
  (780227545236701000, [0x961f968a]);
  (780249291458380700, [0x4fbf]);
  (780292798093828700, [0x6beb]);
  (780510615648908400, [0x8d768d95]);
  (781049936247754850, [0x6cbf]);
  (781137668377961700, [0x66f9]);
  (781240119905400900, [0x8a5e8bcd]);
  (781504049677378000, [0x7834]);
  (781533418253213200, [0x62c9]);
  (781739240142985500, [0x4e03]);
  (782351856001427900, [0x7389]);
  (782566790306888100, [0x59d1]);
  (782745016998949250, [0x8840]);
  (783057680098892500, [0x97d397e9]);
  (783065136386410400, [0x97cb97e6]);
  (783304031610142500, [0x7c7b985e]);
  (783543498910089200, [0x4e1a696d]);
  (783678451697102600, [0x9806987a]);
  (784159764200320400, [0x5c1a]);
  (784197464483519000, [0x535a]);
  (784476889201822100, [0x5b97]);
  (784507144099564400, [0x4e3481e8]);
  (784886104686482300, [0x9644]);
  (785159848298988400, [0x80cc]);
  (785243641867022100, [0x8b1d8c22]);
  (785380910248219300, [0x4ee4]);
  (785411439938580100, [0x6c7d]);
  (785594814073094300, [0x5e2e5e6b]);
  (785832171100421500, [0x521a525b]);
  (785908858220744200, [0x7bc08282]);
  (785985604195347600, [0x5feb]);
  (786100833706849300, [0x88e191cc]);
  (786154652952372400, [0x5dee]);
  (786493610213962900, [0x5e1d]);
  (786501327156514100, [0x8ad68bba]);
  (787400558022105000, [0x4e9196f2]);
  (787509634776199800, [0x66fe]);
  (787618830637607700, [0x57f9]);
  (787821939839531200, [0x97f3]);
  (788056810377314300, [0x665a]);
  (788080327799913200, [0x538b58d3]);
  (788315806715632000, [0x964d]);
  (788496716821212400, [0x7a337a69]);
  (788536088450525250, [0x8499]);
  (788567596918686700, [0x63a2]);
  (788843720323979300, [0x60ca9a5a]);
  (788875325886821400, [0x6ce2]);
  (789176077993216900, [0x77ff7926]);
  (789247441434377400, [0x9f8d9f99]);
  (789628908955691700, [0x51b7]);
  (789772335275099400, [0x5a01]);
  (789947913931538200, [0x8ca88d27]);
  (790027824436030300, [0x592b]);
  (791209937835582500, [0x9664]);
  (791226117756336200, [0x5b83]);
  (791355651453204700, [0x8cea8d28]);
  (792308000843085400, [0x4ecb]);
  (793211720434352150, [0x8463]);
  (793294283186730400, [0x638c]);
  (793368647990818400, [0x5bcc]);
  (793550661774831400, [0x79e6]);
  (793641793051591200, [0x5438]);
  (794057076040447500, [0x53bb]);
  (794457376800152700, [0x8ffd]);
  (794474090823257000, [0x678469cb]);
  (794507527252557900, [0x54c8]);
  (794566067919084400, [0x5c40]);
  (794775421929309800, [0x5b9c]);
  (795069255830850400, [0x7d9c7efc]);
  (795102891889021600, [0x4fb5]);
  (795363955661024850, [0x53f2]);
  (795473637173813300, [0x7167]);
  (795498965385354850, [0x6982]);
  (795972940034847500, [0x9102]);
  (796083291898683700, [0x65bd]);
  (796619805853290700, [0x90939127]);
  (796979087676893600, [0x65979b25]);
  (797442926337053400, [0x7e41]);
  (797623890667536500, [0x62e564c1]);
  (797718812364269800, [0x6751]);
  (797857041327964200, [0x6bcd]);
  (798194777089568600, [0x7d007eaa]);
  (798437959422370300, [0x8349]);
  (798882423965123150, [0x690d]);
  (798961064364125500, [0x8863]);
  (799031018896534000, [0x7956]);
  (799214882714036450, [0x8fb9908a]);
  (799451776880535550, [0x6b226b61]);
  (799944909264154300, [0x4e5f]);
  (800396137634275600, [0x4f545360]);
  (800405005634104100, [0x88ab]);
  (800698091682528500, [0x5ffd]);
  (801063429580526600, [0x798f]);
  (801197423972811300, [0x547c]);
  (801268961130471900, [0x8f038f83]);
  (802104357859529300, [0x505c]);
  (802284928511698900, [0x5baa61b2]);
  (802303003523045000, [0x5347]);
  (802465825811391100, [0x666f]);
  (803065119351152200, [0x4fc4]);
  (803247434807303800, [0x848b8523]);
  (803302194323137700, [0x826f]);
  (803320454160675900, [0x7ade7af6]);
  (803393526871271200, [0x661f]);
  (803851445063142500, [0x6881]);
  (803906536424374200, [0x8ac78c08]);
  (804366815244898300, [0x8cb48d35]);
  (804459125784085100, [0x4e92]);
  (804486835570435200, [0x7f3a]);
  (804551521614367200, [0x5144]);
  (804792151068745200, [0x4e497fa9]);
  (805219303728627600, [0x56fa]);
  (805237917037197100, [0x65af]);
  (805442892418756000, [0x5c24]);
  (805723083131623400, [0x641c]);
  (805957176594956200, [0x7b54]);
  (806173027647746400, [0x5947]);
  (806182423053400000, [0x67406bba8af88bf8]);
  (806398761377911400, [0x56f0]);
  (806455274518720300, [0x82e5]);
  (806662763039825500, [0x96f7]);
  (806691090314458800, [0x542b]);
  (806795025694911800, [0x6697]);
  (806899069213401400, [0x4f2450b7]);
  (807145421431985500, [0x5409]);
  (807164396764110700, [0x6cb9]);
  (807601826141713300, [0x675c]);
  (807993328193454000, [0x679c]);
  (808299959326768700, [0x8fc5]);
  (808511314963138300, [0x600061f7]);
  (808665309218787000, [0x76ae]);
  (809022331839540000, [0x725b]);
  (809128719972791400, [0x6025]);
  (809157754572559900, [0x96349670]);
  (809283668677044900, [0x4f8b]);
  (809487403891829300, [0x6708]);
  (809642909803232600, [0x4eac]);
  (810218436924682000, [0x4e4c70cf]);
  (810286940132332100, [0x5bfb5c0b]);
  (810482922556648900, [0x6625]);
  (810728441953243900, [0x5065]);
  (810984423189803600, [0x4ecd]);
  (811112659952136600, [0x7b147b46]);
  (811399320554704700, [0x6df7]);
  (811419120574569200, [0x886588dc]);
  (811538003093028800, [0x8a138bad]);
  (812084696964943100, [0x68116a39]);
  (812214353393618900, [0x9000]);
  (812404154159852800, [0x5eb7]);
  (812504194184202600, [0x4e01]);
  (812574281796583400, [0x5374537b]);
  (812584298323861800, [0x793c79ae]);
  (812985784359497100, [0x91ce]);
  (813277872999452500, [0x5047]);
  (813348505160201400, [0x5b63]);
  (813388888805374100, [0x58835ef6]);
  (813409086745253000, [0x9152]);
  (813702416242987400, [0x59655967]);
  (813753077371787700, [0x9bae9c9c]);
  (813976291750181800, [0x51af99ae]);
  (814189825818812100, [0x8cc88d3e]);
  (814393616392704100, [0x7adf]);
  (814424220830586300, [0x83ab]);
  (814546732331361400, [0x70759748]);
  (814597823120803500, [0x59cb]);
  (814648940026277000, [0x53c8]);
  (814761489278450300, [0x573a5834]);
  (814874165346709300, [0x6f5b6f5c]);
  (815017755114970300, [0x8cac8d23]);
  (815738813039249600, [0x8239]);
  (815935429235460500, [0x53f3]);
  (816049436606466000, [0x5f1f]);
  (816142812138487800, [0x9ebb]);
  (816215497879707600, [0x8b1b8bb2]);
  (816267448631564500, [0x514b]);
  (816340225055216400, [0x901f]);
  (816590147084709300, [0x53eb]);
  (817154765899613100, [0x4fc3]);
  (817480345140109000, [0x62b5]);
  (817501386697261800, [0x627e]);
  (817754231332597600, [0x899689c6]);
  (817764780412200100, [0x517b990a]);
  (817849213134894300, [0x6750]);
  (818018292748248600, [0x6d4b6e2c]);
  (818028869722186200, [0x56f4570d]);
  (818155880746881000, [0x969096b1]);
  (818251244992519100, [0x8a728be5]);
  (818495367599561900, [0x4f9b]);
  (818665544198810300, [0x4e619109]);
  (818761395955443500, [0x4e506a02]);
  (818836010892551200, [0x8a698bd7]);
  (818900010894735800, [0x5974]);
  (818985407996424200, [0x906d]);
  (819445671051388700, [0x79c1]);
  (819542273860382400, [0x8857]);
  (819563753830393000, [0x9b4f]);
  (819606727617045000, [0x670b]);
  (820774056047517500, [0x9633967d]);
  (820806677153662200, [0x6301]);
  (821286346665966600, [0x5c5e5c6c]);
  (821362870310039700, [0x64cd]);
  (821570873012435100, [0x8a0e8ba8]);
  (822351998057914000, [0x8ca28d21]);
  (822828057634000700, [0x683c]);
  (823005776219041000, [0x77ed]);
  (823072502200164500, [0x7b7e7c3d]);
  (823239512203911500, [0x8b66]);
  (823663856782600800, [0x4f38]);
  (823787030192720400, [0x9f4a9f50]);
  (824213709483656800, [0x63aa]);
  (824303769154271700, [0x6c42]);
  (824597024496399600, [0x76db]);
  (824834514005816600, [0x7533]);
  (824857161497703800, [0x9650]);
  (824902471874555000, [0x5f526b78]);
  (825288441249158700, [0x7da07eff]);
  (826064878125352400, [0x6628]);
  (827055555505439700, [0x8edf8f6f]);
  (827426699517649800, [0x4e607fd2]);
  (827449941818742300, [0x52675287]);
  (827473189523136200, [0x7206]);
  (827577871126182000, [0x65e267e5]);
  (828184853262889600, [0x64a4]);
  (828196562179242900, [0x591c5f027570]);
  (828583727559915900, [0x9418949f]);
  (828642519965630900, [0x5f815fb5]);
  (828760208575189800, [0x6b21]);
  (828771985057568000, [0x52aa]);
  (829019612092894300, [0x932f9519]);
  (829303367308115500, [0x8acb8bf7]);
  (829647315936346700, [0x8db3]);
  (829873304733090600, [0x77408457]);
  (830147555188177600, [0x7ffb]);
  (830650309419283800, [0x5e84838a]);
  (830782401903215700, [0x6b65]);
  (830878578876246200, [0x677e]);
  (830950772357904000, [0x8cbb8d39]);
  (831131484412384000, [0x92b79500]);
  (831445494332237000, [0x5b57]);
  (831457591350336700, [0x793a]);
  (831554420212900800, [0x81f4]);
  (831602869826251700, [0x811a8173]);
  (831748359667628100, [0x5224]);
  (831809042963379500, [0x54037403]);
  (832283640751076200, [0x932294b1]);
  (832393483930485600, [0x6551]);
  (832466779804766200, [0x57238056]);
  (833215020032880100, [0x501f]);
  (833387540100315300, [0x9001]);
  (833473911874455300, [0x635f640d]);
  (833683983005153300, [0x68376a23]);
  (833770611313274700, [0x89d2]);
  (834503761537259200, [0x8521]);
  (834541184353139000, [0x7b97]);
  (834716009572492000, [0x79fb]);
  (835531725961033400, [0x7b11]);
  (835556930750076900, [0x4e0e8207]);
  (835897818650411800, [0x51995beb]);
  (836252563732935500, [0x5d07]);
  (836506725770887000, [0x7cae7ce7]);
  (836953069686039000, [0x6062]);
  (837029786222214300, [0x59875a66]);
  (837080963296002900, [0x92fc94a2]);
  (837157778048211500, [0x9047]);
  (837337242267639000, [0x7981]);
  (837362906325267400, [0x8f388f93]);
  (837375740824418600, [0x7d20]);
  (837388576971025000, [0x75db]);
  (837710017299225600, [0x6a2a6a6b]);
  (837825989221250100, [0x7518]);
  (838330094211744000, [0x5c4b]);
  (838537643903579300, [0x4eea5100]);
  (838810708243332600, [0x607660e1]);
  (838836753301430000, [0x8f9b]);
  (839293643333216000, [0x7684]);
  (839319814492747600, [0x552f]);
  (839332902641447700, [0x674296dc]);
  (839700068015900300, [0x532f6c47]);
  (839989503818536900, [0x93ae9547]);
  (840372317301677400, [0x523a]);
  (840438467995364400, [0x753b756b]);
  (840478179426159500, [0x5269]);
  (840491420074970600, [0x7b26]);
  (840584153737309400, [0x5b54]);
  (840743326074934800, [0x4f11]);
  (840889456954476200, [0x907f]);
  (841035801688903300, [0x7c73]);
  (841810999369335000, [0x8ca78d2b]);
  (842524662938278200, [0x8ab28bfe]);
  (842700493104630700, [0x52125283]);
  (842822403041842300, [0x52bf52e2]);
  (842835957769074200, [0x514d8b808bfb]);
  (843202631636816000, [0x5e78]);
  (843216238004617200, [0x900f]);
  (843243456295476600, [0x7126]);
  (843257068219543100, [0x51b0]);
  (843352403602998100, [0x6069]);
  (843393289463874200, [0x9b6f9c81]);
  (843926332480942400, [0x7d0d7eb3]);
  (844200794022795800, [0x6050]);
  (844242028302811000, [0x5f395f48]);
  (844407135660076200, [0x613f9858]);
  (844655308957174000, [0x57065713]);
  (844862591557474700, [0x4ed9]);
  (845236786436622400, [0x9f13]);
  (845431366067159500, [0x6416644766f2]);
  (845459194090158000, [0x80af]);
  (845640265244861000, [0x5b815be7]);
  (845793735801666600, [0x6b8b6b98]);
  (845821664862035200, [0x80f8]);
  (845933459172169400, [0x65c1]);
  (845975414280819200, [0x8cfc8d2d]);
  (846143410960397600, [0x7de97f13]);
  (846171437866410700, [0x559d]);
  (846241539516670300, [0x82e6]);
  (846283624107317300, [0x8cbf8d38]);
  (846452139805109000, [0x9003]);
  (847030053880961700, [0x4f5b]);
  (847540259069351300, [0x5426]);
  (847710907574927200, [0x5c04]);
  (847767855184666700, [0x72af]);
  (847824835243188300, [0x66b4]);
  (847881847787492000, [0x6388]);
  (848597260768696400, [0x5a92]);
  (848769724162981600, [0x5f6d]);
  (848856067527102500, [0x805a]);
  (849028978233007500, [0x4f4f]);
  (849043400963255300, [0x70ae]);
  (849187742789701800, [0x536276e7]);
  (849361228448365000, [0x812b8131]);
  (849549511507825800, [0x5cb3]);
  (849564009514375200, [0x81118166]);
  (850087342588415300, [0x96359663]);
  (850101918785511200, [0x504f]);
  (850116497107572200, [0x5e9f5ee2]);
  (850291602945398100, [0x503e50be]);
  (850686715773753700, [0x50a85132]);
  (850818767733372500, [0x68c9]);
  (850965696939940500, [0x91dd9488]);
  (850980401741084500, [0x8a00]);
  (850995108704858400, [0x7d217eba]);
  (851024529122840600, [0x8272]);
  (851201233630607500, [0x53f7865f]);
  (851289703114407800, [0x54e5]);
  (851481655923439000, [0x5766676d]);
  (851614762502287000, [0x5361]);
  (851659170762953000, [0x6885]);
  (851673977900020200, [0x8336]);
  (852044870692226000, [0x58eb]);
  (852119214610600700, [0x5c0a]);
  (852282966042800200, [0x68ee]);
  (852372398154887000, [0x8fce]);
  (852521629640573200, [0x73cd]);
  (852805784471717500, [0x5f559304]);
  (853105769697434000, [0x4eab]);
  (853210977492514500, [0x7e317eb5]);
  (853241057203976000, [0x90fd]);
  (853331350663835200, [0x6b4c]);
  (853512182539513600, [0x821e]);
  (853753801503330600, [0x69ae8363]);
  (853814297572931100, [0x958995ed]);
  (853920253838047200, [0x6bb5]);
  (854011162935217300, [0x8c61]);
  (854421279709638700, [0x963b]);
  (854817803029246000, [0x5fd7]);
  (854909532129088800, [0x99d09a7b]);
  (855016655867238700, [0x5012]);
  (855031968630456700, [0x5609]);
  (855123894483414000, [0x541b6563]);
  (855646409887690900, [0x517c]);
  (855846918939212700, [0x622a]);
  (855877802200730500, [0x5b5d]);
  (855908695002953300, [0x62ff]);
  (856016895028966500, [0x54155442]);
  (856171669862526000, [0x6d3e]);
  (856249147204280300, [0x983b9891]);
  (856481940046277000, [0x6bd2]);
  (856621876320375700, [0x9676]);
  (856980383445843900, [0x96f6]);
  (857121019456210000, [0x6293]);
  (857199236120346300, [0x636e64da]);
  (857371528433308900, [0x6162]);
  (858554227703732800, [0x5979]);
  (858712983095069200, [0x7d147eaf]);
  (859031251982442000, [0x8033]);
  (859254644448089900, [0x984f989c]);
  (859302579257668000, [0x50995907]);
  (859574644721157100, [0x6298]);
  (860040471601574000, [0x65ad65b7]);
  (860800071213503800, [0x5207]);
  (861043716262157400, [0x6d536fc3]);
  (861092516588461400, [0x95b19605]);
  (861385819715461700, [0x697c6a13]);
  (861549138386419400, [0x6c6a]);
  (861647257772868800, [0x7d1b7eb7]);
  (862007854787110000, [0x54f2]);
  (862040700903352300, [0x695a]);
  (862188642082632100, [0x51e49cf3]);
  (862419208719689400, [0x57c3]);
  (862534691698786200, [0x5a5a5f69]);
  (862732973323564000, [0x8fdd9055]);
  (862931648885603800, [0x5178]);
  (862981379512405800, [0x4ec550c5]);
  (863180549702727300, [0x54b8]);
  (863280283753547600, [0x9aa8]);
  (863613450811685900, [0x95d695ef]);
  (864064994350035000, [0x77db]);
  (864367160099499700, [0x4f8d]);
  (864383973886845000, [0x542f555f]);
  (864518586055918300, [0x667a]);
  (864889706589835000, [0x5018]);
  (864957331275421400, [0x6311]);
  (865126593333435400, [0x5211]);
  (865347063192941200, [0x5de1]);
  (865431988888066600, [0x538953b2]);
  (865670165251085800, [0x84dd85cd]);
  (865874768903025500, [0x5634]);
  (866353811735288700, [0x58ee58ef]);
  (866559820391837500, [0x593a596a]);
  (866852394389369400, [0x5bbd5bec]);
  (866869631310898000, [0x6d1e]);
  (867180405041682600, [0x7384]);
  (867353475351411000, [0x8d0a8d5e]);
  (867405454907289900, [0x5c3c]);
  (867422787431815400, [0x6001614b]);
  (867457461495963100, [0x71d5]);
  (867787466137612800, [0x5668]);
  (868048767566666200, [0x7d667ed9]);
  (868275782420120000, [0x5be1]);
  (868380732578432600, [0x4e58]);
  (868485792997831800, [0x9759975c]);
  (868871961636409800, [0x62bd]);
  (868995146869761100, [0x6843]);
  (869047987029511000, [0x620f6232]);
  (869118484036308000, [0x6de1]);
  (869206675240542400, [0x9655965d]);
  (869241973511293700, [0x5bb3644664fa]);
  (869277284246123800, [0x684c]);
  (869577929976161000, [0x7ae0]);
  (869719723690098500, [0x7387]);
  (869826201073716600, [0x59da]);
  (870360295275499000, [0x70e7719f71d2]);
  (870485328782901700, [0x51fb64ca]);
  (870664219707174200, [0x7f627f77]);
  (870897257367534800, [0x7ae5]);
  (870951112498537600, [0x958395ea]);
  (871094868138748000, [0x6d1b]);
  (871328912714032100, [0x62a48b77]);
  (871581574822817200, [0x75be]);
  (871635799858036500, [0x62cd]);
  (871834876930390300, [0x8c37]);
  (871961768998536000, [0x7247]);
  (872216037206723000, [0x6848]);
  (872398054002515400, [0x6cf0]);
  (872891160654139300, [0x9a0e9a91]);
  (873092755151076400, [0x5b5f]);
  (873423516202352000, [0x5e9e9f90]);
  (873626187851643400, [0x7d047ea6]);
  (873644632931470600, [0x8ddf]);
  (873755374913995200, [0x68656a4b]);
  (873829271093230800, [0x7532]);
  (873958720949495500, [0x5019]);
  (874014250798215300, [0x60b26e2f]);
  (874125403088280900, [0x4e5455ac]);
  (874181025598290200, [0x53cb]);
  (874218124467200000, [0x7248]);
  (874720310959212000, [0x805e95fb]);
  (874757610474750500, [0x5584]);
  (874776265451019700, [0x8c9d8d1d]);
  (874925630676697900, [0x731b]);
  (874981700204379300, [0x65e7820a865a865b]);
  (875318779175228200, [0x80d6]);
  (875412614220116600, [0x60a370df7159]);
  (875544131383272600, [0x4e39]);
  (875769992574714900, [0x5fcd]);
  (875807685752696000, [0x63cf]);
  (875939723874302900, [0x5b88]);
  (875977481095820000, [0x96ea]);
  (876412716904457400, [0x8d8b8da8]);
  (876640550684423700, [0x6d89]);
  (876659560284328900, [0x5b645ca9]);
  (877557112380693700, [0x98f2996e]);
  (878675951212398400, [0x8cfd8d5b]);
  (878792410852890200, [0x59bb]);
  (879357219054149100, [0x8377]);
  (879396289185531000, [0x5956734e]);
  (879474475272391100, [0x6148]);
  (879748608986262700, [0x85cf]);
  (879846696291822000, [0x4e708cb7]);
  (880082499112814200, [0x5bd2]);
  (880180914631042000, [0x6fb3]);
  (880259716841581700, [0x8a718bdd]);
  (880714038610699000, [0x4f30]);
  (880753642571612800, [0x718a]);
  (881011451341080600, [0x5e95]);
  (881230117564776800, [0x58a8]);
  (881250020042701000, [0x98029876]);
  (881628921682572300, [0x7dda7ebf]);
  (882089521275291800, [0x8fbd907c]);
  (882149756193286200, [0x9e7f]);
  (882592591055447000, [0x9732]);
  (882733905301230800, [0x6c646e6f]);
  (882754109362315700, [0x628a]);
  (882875419526808400, [0x6f58]);
  (882895652202648800, [0x5200]);
  (882996877031618200, [0x7d22]);
  (883077930734130600, [0x8df3]);
  (883301167762404300, [0x96c4]);
  (883647153657558000, [0x7af9]);
  (883973884599639900, [0x9707]);
  (884096684451338400, [0x8ff7]);
  (884178634875920700, [0x6613]);
  (884281167438989300, [0x6606]);
  (884301686573153800, [0x6e146f01]);
  (884342737476850000, [0x60ac61f8]);
  (884527675369897500, [0x6d6e8096]);
  (884609979901292600, [0x4ed8]);
  (884692352228849700, [0x5f7b5fb9]);
  (884795413146969200, [0x7761]);
  (884877938425017700, [0x63ed]);
  (885105234731161500, [0x8d64]);
  (885312317016802200, [0x6bb7]);
  (885457530194482300, [0x8352]);
  (885561383148047400, [0x5356671b8ce3]);
  (885644543236000100, [0x959395f4]);
  (885769413179384600, [0x5348]);
  (885894439242763800, [0x51ac]);
  (885936149358071400, [0x4e1d7d72]);
  (886061384189718000, [0x5e866176]);
  (886542909248674000, [0x82308266]);
  (886668906745393300, [0x4e08]);
  (886774026065490500, [0x52c7]);
  (886816104753256300, [0x4eff]);
  (886837150738812200, [0x62ac]);
  (887343587778180700, [0x4f2f]);
  (887385906864720100, [0x82708271]);
  (887576564691778300, [0x6234]);
  (887788833928773600, [0x78c1]);
  (888086769880167800, [0x7a97]);
  (888172057731819500, [0x6d59]);
  (888364221770882700, [0x503c]);
  (888385596143092000, [0x4e18]);
  (888406975084915700, [0x7a7f]);
  (888471139347624100, [0x74e6]);
  (888685318054471600, [0x8f2a8f6e]);
  (888728208897934200, [0x51a0]);
  (888814045813075800, [0x54a8]);
  (888985940999364200, [0x9686]);
  (889222780382330000, [0x4f1f5049]);
  (889352202315839500, [0x9075]);
  (889525025862851800, [0x984c9898]);
  (890045295841957600, [0x98129881]);
  (890110520325191800, [0x67f3]);
  (890132271276881500, [0x5c48]);
  (890350041397787200, [0x8feb]);
  (890393652388447900, [0x786c8ddd]);
  (890415465018046800, [0x59885abd]);
  (890721342468679300, [0x796d]);
  (890962332836160300, [0x859b]);
  (891225895475003300, [0x4faf]);
  (891313904281564000, [0x6444651d]);
  (891357937747709400, [0x5976]);
  (891379961753965000, [0x7d2f]);
  (891534265763419500, [0x8150]);
  (891622546501883000, [0x668266ab]);
  (891733007133903200, [0x90ae90f5]);
  (891843589916376400, [0x8179]);
  (891932144272395900, [0x6eb6]);
  (892576519349489000, [0x86cb8b5a8c2d]);
  (892621112438299300, [0x878d]);
  (892732682236774400, [0x6c61]);
  (892933822096742900, [0x52a9]);
  (893269956867013400, [0x5170862d]);
  (893562190412067100, [0x594b596e]);
  (893629750374100800, [0x7591]);
  (893923038796404900, [0x970d]);
  (894013454715765300, [0x54cd97ff]);
  (894217189930549600, [0x6d0b]);
  (894444050281929000, [0x5085]);
  (894580413939423400, [0x79cb]);
  (894762521888681000, [0x8a2a8bbf]);
  (894899320815623500, [0x7164]);
  (895265035508948300, [0x821298ef996d]);
  (895402524073227600, [0x6070]);
  (895517242452219300, [0x72b97336]);
  (895609112003926500, [0x636263db]);
  (895724067758625300, [0x7c97]);
  (896000501936040200, [0x5fa179a6]);
  (896323977264311000, [0x5c9b5cf6]);
  (896370273561434200, [0x51dd]);
  (896741417573644400, [0x59d0]);
  (896764659874736800, [0x4f26502b]);
  (896974084035048400, [0x6e106f38]);
  (897370863643010700, [0x76d876e4]);
  (897417647269595200, [0x545854e1]);
  (897464452793501300, [0x9ea59ea6]);
  (897605000954374800, [0x80c681bd96c5]);
  (898004296846023200, [0x7b56]);
  (898263516974680000, [0x59dc]);
  (898428825785497600, [0x5b87]);
  (898523410800825300, [0x8427856d]);
  (898736554753632400, [0x5c16]);
  (899021455231239800, [0x5c425c64]);
  (899116602717009900, [0x7a467c89]);
  (899211840819446600, [0x5949]);
  (899402589565886000, [0x7f6a]);
  (899426458762801000, [0x60e86158]);
  (899450333658461600, [0x9014]);
  (899545890283028400, [0x6649664b]);
  (899593702858646400, [0x706f71c8]);
  (900145196883213200, [0x7cfe7ea0]);
  (900289566494429000, [0x73ed]);
  (900410033922562600, [0x842885a9]);
  (900434144832866300, [0x71c3]);
  (900506512463572400, [0x8cb88d37]);
  (900941821494384600, [0x56ed5712]);
  (901233083836214100, [0x7f8a]);
  (901671574185570000, [0x51cc]);
  (902210131178829200, [0x626c62d263da]);
  (902259235034468400, [0x5782]);
  (902406691438675200, [0x5e7c61559a459a71]);
  (902480501258731700, [0x8859]);
  (902603638818928300, [0x9f3b]);
  (902899789084735400, [0x80a9]);
  (902924507908245200, [0x7070]);
  (903172032787099400, [0x6d17]);
  (903320842338369600, [0x8cab8d2f]);
  (903395330237530700, [0x62a26436]);
  (903668928219418200, [0x8a738be6]);
  (904118254986372000, [0x83dc8c6a]);
  (904393840780230300, [0x7a76]);
  (904670188148661200, [0x8cc08d3a]);
  (904745688340998000, [0x6469]);
  (904922077450609500, [0x745e]);
  (904947301312516600, [0x6842]);
  (905250484970728500, [0x73a9]);
  (905275791816365300, [0x5398]);
  (905605364937597200, [0x7e967ea4]);
  (906089011037541200, [0x7e2e7f29]);
  (906114531007055700, [0x9ece]);
  (906140057490921300, [0x65d7]);
  (906242228636463100, [0x7a009677]);
  (906267787742033600, [0x93269526]);
  (906498114139442800, [0x6e7f6fd5]);
  (906703295027019400, [0x5fe0]);
  (907011857884337600, [0x4fde]);
  (907218096678759700, [0x6b96]);
  (907476494755352200, [0x5251528d6258]);
  (907631854703742600, [0x96d5]);
  (907657771510937000, [0x5c385c4d]);
  (907761505960073100, [0x5954]);
  (907787456394888500, [0x62366237]);
  (907917309678944700, [0x78b0]);
  (907995302663530000, [0x656c]);
  (908047331801019900, [0x827e]);
  (908151471357424500, [0x4e73]);
  (908307884319448900, [0x6ce5]);
  (908438415600220000, [0x67aa69cd]);
  (908988515219254700, [0x58997246]);
  (909067348490976300, [0x83b284ee]);
  (909093640064678400, [0x5a46]);
  (909409679305870900, [0x6355]);
  (909700261996141000, [0x8089]);
  (909779658586258800, [0x5c397275727d]);
  (911031839593718300, [0x5b8f]);
  (911219683470232800, [0x53825ee0]);
  (911488645439796300, [0x632f]);
  (911569475297356200, [0x624d]);
  (911866411674259000, [0x959295f2]);
  (911974607519274200, [0x677f9012905e]);
  (912164232389856000, [0x7ad9]);
  (912218477034527500, [0x67f4]);
  (912408565347026900, [0x88c1]);
  (912680748421976200, [0x8f5f8f70]);
  (913008349042566200, [0x62dc]);
  (913227347213859600, [0x6c60]);
  (913309595333643500, [0x4fa65075]);
  (913529254949697600, [0x60a0]);
  (913721853716070800, [0x8aa48bef]);
  (913970027013168500, [0x707d707e]);
  (914108167662294600, [0x5854]);
  (914246499403816800, [0x4e714e82]);
  (914274188729758600, [0x8ce68d4b]);
  (914468228984681500, [0x5fd8]);
  (914523738283914300, [0x5e8a]);
  (914690451298353200, [0x8015]);
  (915108453857661200, [0x507673e0]);
  (915332105055163400, [0x5dde]);
  (915556257572664800, [0x9080]);
  (915640444472543700, [0x612461a4]);
  (915696608472896800, [0x62b1]);
  (915752804034926300, [0x7d197eb8]);
  (915809031194125000, [0x6c9f6e9d]);
  (916147059685007300, [0x82d7]);
  (916486234685119200, [0x6d6a]);
  (916514551264665700, [0x80a5]);
  (916854977125345800, [0x51e1]);
  (917054095382003700, [0x928594dc]);
  (917482117151166900, [0x51416012]);
  (917510717179961700, [0x984d989d]);
  (917998173342310200, [0x5d1466768870]);
  (918286026160529400, [0x7267]);
  (918343696289002000, [0x6db2]);
  (918951249148716800, [0x5ff5]);
  (919067393180355900, [0x67ef]);
  (919329211511735200, [0x5473]);
  (919620927004485900, [0x8461]);
  (919884200522065900, [0x7239]);
  (920265712356784800, [0x59b9]);
  (920412836114380500, [0x9ed8]);
  (920442286858224700, [0x586b]);
  (920530691166325000, [0x7aef]);
  (920678205575727100, [0x5e935eab]);
  (920855510586715700, [0x5bc4]);
  (921122058945329800, [0x92749451]);
  (921270448941397000, [0x96de9e21]);
  (921419059460648300, [0x67b6]);
  (921478565561779400, [0x5f85]);
  (921836347696567800, [0x66fc]);
  (921866220736371700, [0x4e2755aa]);
  (921985802215494500, [0x6f6e]);
  (922045646621828800, [0x8fdf9072]);
  (922465563255656700, [0x6ed1]);
  (922887250627514700, [0x7a057a0e]);
  (922977844020393500, [0x724c]);
  (923189548318425500, [0x8f148f85]);
  (923250117672185000, [0x525d5265]);
  (923675133491082400, [0x68cb]);
  (923766443800272400, [0x4e435a18]);
  (923827363692500800, [0x632563ee]);
  (923888320719685500, [0x523b]);
  (924163088103666000, [0x5ea7]);
  (924224250185083400, [0x90b5]);
  (924346686686451200, [0x8de8]);
  (924653435393237400, [0x7b797c4c]);
  (924776398827113900, [0x6e90]);
  (924868720729347500, [0x8fc19077]);
  (924899513647219800, [0x845b]);
  (924961127943685400, [0x514751f673bb]);
  (925022780226772700, [0x626b6383]);
  (925455413781676800, [0x8fd4]);
  (925486387918520500, [0x5faa]);
  (925517371652308200, [0x9694]);
  (925641402675960600, [0x76c6]);
  (925827738133601700, [0x67d3]);
  (926045569245098200, [0x5429]);
  (926326336860518000, [0x6e58]);
  (926451375951520200, [0x5f7c96e8]);
  (926513954176340900, [0x602a]);
  (926764659415770700, [0x592268a6]);
  (926796041810505000, [0x6084]);
  (927015994766424200, [0x6b238f3b8f90]);
  (927141899724825300, [0x72c2]);
  (927615460199408700, [0x62c6]);
  (928059482495682000, [0x6c27]);
  (928473561762285200, [0x585e]);
  (928505485146435000, [0x6b3a]);
  (928889362777151600, [0x5de7]);
  (929017650158440500, [0x4f34]);
  (929049747735349000, [0x62ab8986]);
  (929146102327676200, [0x5893]);
  (929178241167740600, [0x63d2]);
  (929274719708750600, [0x50779813987f]);
  (929371291420746500, [0x5e7d]);
  (929952688407288400, [0x5192]);
  (930179703260742300, [0x732e737b]);
  (930342172833442600, [0x82cd84bc]);
  (930439781430748200, [0x4ed4]);
  (930700537771456200, [0x704c]);
  (930896552208603500, [0x6e218a548bcf]);
  (930994703696934800, [0x99d59a7e]);
  (931355418959346800, [0x7df47ec3]);
  (931651520508144600, [0x6f02]);
  (931684474866656700, [0x65cb]);
  (931750416181278100, [0x77a7]);
  (932014617127562000, [0x8036]);
  (932080776574235900, [0x9808987b]);
  (932345852938860300, [0x7259]);
  (932379036944474200, [0x6f2b]);
  (932644906160573600, [0x95e19610]);
  (932711484059171300, [0x55b75674]);
  (932778106313467600, [0x526f]);
  (932944856393793400, [0x79e9]);
  (933011634359547000, [0x808c]);
  (933145324219031200, [0x90b99112]);
  (933245709035893400, [0x8d6b]);
  (933547469533109000, [0x822c]);
  (933749150273739500, [0x806a80708ecc8f68]);
  (933816467677829800, [0x67cf]);
  (934018692215906700, [0x8010]);
  (934322797873484500, [0x8f098f7d]);
  (934356644548371800, [0x76d09e7d]);
  (934390502683112200, [0x90bb9130]);
  (934526049975976700, [0x8584]);
  (934899755184122000, [0x4e7e]);
  (934933797737642400, [0x6276]);
  (935001917631284700, [0x795d]);
  (935035994987211600, [0x62e66514672b]);
  (935104184556850100, [0x754c]);
  (935548553772092900, [0x6d516e3e]);
  (935582817949231300, [0x4fd7]);
  (936236077965338800, [0x51fd]);
  (936305091080569300, [0x8f9e8fad]);
  (936443260359890800, [0x66a27545]);
  (936477832529638800, [0x4fa75074]);
  (936997854502349600, [0x62fc]);
  (937032618973410600, [0x9b3c]);
  (937206622845398000, [0x79df]);
  (937241459982137700, [0x8caa8d2a]);
  (937485660347692800, [0x75b2]);
  (937625471625273100, [0x6d8c6e67]);
  (938010963604317800, [0x5ea6]);
  (938046082129700700, [0x820d]);
  (938081212992524600, [0x4f0f]);
  (938186679692404400, [0x50cf]);
  (938292257741979300, [0x57cb]);
  (938362705085505600, [0x539a]);
  (938574345376143300, [0x84b8]);
  (938751055088145300, [0x91ca91cb]);
  (938892648032155500, [0x8b008c0b]);
  (938963519757304800, [0x6dee]);
  (939069921611641900, [0x89e689f8]);
  (939532309061824700, [0x7709]);
  (939567966042056400, [0x6dfb6ec5706d]);
  (939710721241174900, [0x5851]);
  (939817921537308400, [0x6291]);
  (940032667503872200, [0x50ac654f]);
  (940211975423529200, [0x5c975d177a777aae]);
  (940283788712073400, [0x5c3e]);
  (940391605434108000, [0x5ed6]);
  (940607588239450900, [0x53d96558]);
  (940860159183748300, [0x4f73]);
  (941149594986384800, [0x8305]);
  (941258349755124800, [0x503a50b5]);
  (941294627644149500, [0x60466052]);
  (941403540343243600, [0x75c7]);
  (941548942040979900, [0x4e95]);
  (941694555463141300, [0x6212]);
  (941767441763744100, [0x90e791169178]);
  (941986419953436500, [0x66ff]);
  (942242502039604000, [0x4e45]);
  (942425820147769900, [0x7d107ebd]);
  (942535972536363300, [0x755c]);
  (942940905907637900, [0x6cea6dda]);
  (943014706648995000, [0x7f6e]);
  (943125509984431000, [0x8dc38e8d]);
  (943162471729446100, [0x63a9]);
  (943236436229859600, [0x6851]);
  (943458658543531400, [0x51ed6191]);
  (943755725230618000, [0x8170]);
  (944090983507014000, [0x8c46947d94bb]);
  (944128303903043400, [0x9ce59e1f]);
  (944315115091315600, [0x809a]);
  (944652257197509800, [0x8aa08bda]);
  (945178970228601800, [0x63f4]);
  (945329970634794300, [0x7092]);
  (945405556428264400, [0x7262]);
  (945632657207172000, [0x6d456dfa7e6a7ed8]);
  (945670557529778400, [0x72ed72f9]);
  (945708472222175800, [0x90b1]);
  (945784344759958100, [0x53db]);
  (945936262753475200, [0x70b8]);
  (946012308384516300, [0x57476599]);
  (946050352897054300, [0x58fd5bff]);
  (946164573354932000, [0x9811987d]);
  (946355231181990100, [0x84af]);
  (946661041817872100, [0x780178bc]);
  (946929395438757600, [0x61c2]);
  (947006200358047900, [0x5f845f91]);
  (947198471134449900, [0x758f]);
  (947545492882350600, [0x50916770]);
  (947661434924324000, [0x4ec1]);
  (947700112163251300, [0x6a0a904d]);
  (947893723065938200, [0x6ecb]);
  (948359924376519300, [0x80bf816b]);
  (948711007241525600, [0x5377]);
  (949298898411503200, [0x4e59]);
  (949338214315292500, [0x969c]);
  (949377545682564500, [0x7763]);
  (949416892525487900, [0x606d]);
  (949456254856246100, [0x8cbc8d34]);
  (949535026030071100, [0x59388a87]);
  (949771712531097700, [0x6167]);
  (950048556686558300, [0x5fe76182]);
  (950167439205017800, [0x9b54]);
  (950207098138712400, [0x529d52f8]);
  (950246772806957600, [0x5e97962e]);
  (950286463222243300, [0x52fe]);
  (950405629075471300, [0x966996aa]);
  (950445382604120500, [0x5308]);
  (950524937103145200, [0x67d4]);
  (950644387644921500, [0x8a988bf1]);
  (950724100682223200, [0x4e1b53e2]);
  (950843789505607800, [0x864e8a348bc9]);
  (950923661714327000, [0x54ed8dea]);
  (951003597769742500, [0x643a651c82a68606]);
  (951283878233506300, [0x5bbf8fa98faf]);
  (951524745471597400, [0x4f195925]);
  (951645397004431500, [0x641e6d4e6fdf]);
  (951887137653985200, [0x4f69]);
  (951927484638595600, [0x5353]);
  (952291341922986400, [0x5951]);
  (952575260183064500, [0x727a72a7]);
  (952697186635885100, [0x6eda6efe]);
  (952819261930801000, [0x7238]);
  (953104685162287500, [0x4ec7]);
  (953227259232792600, [0x51ef51f1]);
  (953309058828355800, [0x903b908f]);
  (953349983731730300, [0x5c60751c]);
  (953431883818208400, [0x6bbf]);
  (953719063502757000, [0x4e88]);
  (953842393425892000, [0x76c8]);
  (954007070284844300, [0x4ff152e4]);
  (954172018775851800, [0x5de9978f]);
  (954213298446200600, [0x6492]);
  (954337239796501700, [0x90dd]);
  (954378587740030500, [0x8a3a8bca]);
  (955000867283857400, [0x72c4]);
  (955250867414066000, [0x4e2b]);
  (955710830591718300, [0x9f949f9a]);
  (955920606208818100, [0x6108]);
  (955962614190952400, [0x62f3]);
  (956004639827208500, [0x520a]);
  (956130822809250900, [0x9760]);
  (956257165213928000, [0x8a958bde]);
  (956552586403671200, [0x5c65]);
  (956806501055538800, [0x76d684cb]);
  (957103551984768200, [0x7237723a]);
  (957188586003497500, [0x4f0d5957]);
  (957231130143683900, [0x58c1]);
  (957273692391613000, [0x5f8b660f]);
  (957358871272402100, [0x5960]);
  (957529447006724900, [0x5f2f5f4e]);
  (957700314199086500, [0x5f9278e87c98968b]);
  (958257657549643400, [0x965b]);
  (958731694205471000, [0x5531]);
  (958947910505920500, [0x65578d25]);
  (958991209922054800, [0x90599065966a]);
  (959034528094705300, [0x62d6]);
  (959251400875435900, [0x8afe8bfa]);
  (959381750665780300, [0x7fbd]);
  (959512270588594500, [0x8a628be2]);
  (959686562571714000, [0x58576d82]);
  (959992306422028800, [0x90a2]);
  (960167437815302300, [0x8e0f]);
  (960298987932935900, [0x665366c9]);
  (960606612873400100, [0x642d]);
  (960694679809959600, [0x59d375af760b]);
  (960871046698709300, [0x53d48ce08d54]);
  (961003526294150700, [0x92ea94fa]);
  (961047725189897800, [0x60e0]);
  (961180439210704100, [0x59966302639b]);
  (961269013175750900, [0x5939593e]);
  (961535206766831200, [0x4eae]);
  (961624095661572800, [0x731c]);
  (961668569756146100, [0x574f58de]);
  (961846664193245700, [0x9910]);
  (961935830494293900, [0x5c14723e]);
  (962159094708491500, [0x5e1583f1]);
  (962203807430005400, [0x629a64ab]);
  (962472504412088000, [0x68fa]);
  (963147422609580800, [0x76d776dc]);
  (963237756852399400, [0x63236399]);
  (963282954593281800, [0x99f19a86]);
  (963645273830224000, [0x7db17eb2]);
  (963917877361147600, [0x62d4]);
  (964054458306577200, [0x50f196c7]);
  (964694314237341500, [0x8a028ba2]);
  (964923830059921000, [0x730e7375]);
  (965061792831861400, [0x7cd6]);
  (965199946204054000, [0x5306]);
  (965246039774817000, [0x64ad]);
  (965661840789683300, [0x60df]);
  (965708147806023700, [0x9e8b]);
  (965754476275696300, [0x934b9505]);
  (965800826218588800, [0x4ef0]);
  (966265511069626200, [0x60e961f2]);
  (966312098538440000, [0x62d3]);
  (966498665756735000, [0x852c]);
  (967013527647642600, [0x5439]);
  (967295482721652700, [0x6da86f32]);
  (967342552621321500, [0x809d]);
  (967672663744018000, [0x5c826e176ef28c48]);
  (967814474214486000, [0x98c498d8]);
  (967956486072672300, [0x5c4f]);
  (968051272809627000, [0x626d]);
  (968193621588112300, [0x51b6]);
  (968478928486352900, [0x62e864a5]);
  (968765051714456100, [0x67a26a1e]);
  (968860608339023000, [0x7409]);
  (968956256361618700, [0x597859e6]);
  (969051995957251400, [0x5448]);
  (969099900149784300, [0x51c06de8]);
  (969243750570178600, [0x79c08cf48d56]);
  (969339765940013000, [0x5f255f4c]);
  (969532073691587100, [0x80a08178]);
  (969676547591024600, [0x4e8f8667]);
  (969869504717946000, [0x51c96dbc7a0d]);
  (969917802231562800, [0x541e]);
  (970111225889546000, [0x540a]);
  (970256539550379100, [0x6bc06bc1]);
  (970742449155611100, [0x8a79]);
  (970937476033614500, [0x8102]);
  (971083996206347200, [0x9b919c8d]);
  (971279690985043200, [0x5f17]);
  (971475769479237300, [0x8b588bc6]);
  (971672233196653900, [0x59ff]);
  (971721409494669800, [0x594f]);
  (971770609987667200, [0x8fc89081]);
  (971819834699466000, [0x82068f3f]);
  (972016976212304400, [0x70e67169]);
  (972066322376641500, [0x4e3d93e1955c9e97]);
  (972214507140729900, [0x68636a94]);
  (972313419117142400, [0x5ab3]);
  (972362911817979400, [0x75bc]);
  (972561127938378400, [0x75977642]);
  (972809451880239200, [0x6e20]);
  (972908954376010900, [0x903c]);
  (972958742776342300, [0x64c5]);
  (973357944903296000, [0x5112]);
  (973808960451084700, [0x935b953b]);
  (973909462972107100, [0x5410]);
  (974110771545375300, [0x578b]);
  (974161162073022500, [0x8116]);
  (974262019368511100, [0x5e7b]);
  (974312486187649400, [0x80f681a0]);
  (974464039639238600, [0x50e7]);
  (974565203026723000, [0x4ed350095708]);
  (974615823123982100, [0x85aa]);
  (974717140255242900, [0x813e]);
  (974767837341246200, [0x7c92]);
  (974869308684301000, [0x6734]);
  (975123438427168100, [0x88c2]);
  (975174341966063300, [0x52a152d972ee7345]);
  (975327208237869700, [0x8cde8d4f]);
  (975531394117896700, [0x7bee7c43]);
  (975582505798028200, [0x5bb0]);
  (975684807597231600, [0x6380]);
  (976095064582909300, [0x52b252c1]);
  (976352332540603400, [0x7d1a7ea7]);
  (976403865651767000, [0x5496]);
  (976455425333239200, [0x95bb960e]);
  (976661930311116100, [0x4e1f4e22578458df]);
  (976765342936671200, [0x91cf]);
  (976817089380258000, [0x8861]);
  (976920662667611200, [0x6b628017]);
  (976972489566931500, [0x98fc9972]);
  (977076224016067700, [0x67af]);
  (977180066185316000, [0x6d25]);
  (977544365313166000, [0x5a1b5a31]);
  (977909996433477000, [0x524a]);
  (977962338753436800, [0x624e]);
  (978224462101424300, [0x536781e5]);
  (978329504127889400, [0x4f2a507d]);
  (978434656608661500, [0x80be814e]);
  (978803563482902000, [0x5a745b30]);
  (979173836320649300, [0x84b2]);
  (979226844538164000, [0x5bdf]);
  (979386037991789100, [0x7980]);
  (979705187198853400, [0x7de37f18]);
  (979811797017053200, [0x78f7]);
  (980025358230095400, [0x70bc7149]);
  (981208167718792000, [0x76df]);
  (981262265637341400, [0x83e9]);
  (981424735210041600, [0x77ac]);
  (981478950445850500, [0x7194]);
  (981587469175979200, [0x5e8f]);
  (981696105797201200, [0x50f5]);
  (981750468397072300, [0x83b1840a]);
  (981804860565941200, [0x708e]);
  (981913733739460800, [0x944494f8]);
  (982022725575863300, [0x625164b2]);
  (982350415656094900, [0x5c3a]);
  (982405135219703700, [0x95f99b27]);
  (982459884742013000, [0x5fd9]);
  (982569473794076700, [0x52c9]);
  (982953984017887300, [0x633a]);
  (983174369782019200, [0x8f1d8f89]);
  (983229542197212000, [0x533e]);
  (983561217459811300, [0x5a037a74]);
  (983672020795247400, [0x88ad8972]);
  (983727468537172600, [0x5f31]);
  (983838456339908700, [0x5802]);
  (984060802179148600, [0x59a5]);
  (984227886595630300, [0x72e0]);
  (984451100974024300, [0x629b62cb]);
  (984506982506632500, [0x7e547ec7]);
  (984562895284158500, [0x785578a9]);
  (984674814713860000, [0x7de07f14]);
  (984786859543509000, [0x6316]);
  (984842929071190400, [0x5bbe8cd3]);
  (985011326528891300, [0x8f448f96]);
  (985180008042039300, [0x514c5151]);
  (985348974570551800, [0x6d4f700f]);
  (985461777741001800, [0x7b3c7c60]);
  (985744343625534800, [0x5272]);
  (986027710207892000, [0x633d]);
  (986198116383748600, [0x558759ca]);
  (986254983032992200, [0x5021]);
  (986596863707870700, [0x810a]);
  (986711084165748400, [0x80838085]);
  (986768243355644300, [0x781678da]);
  (986997207393851600, [0x8574860a]);
  (987054530410612000, [0x683d]);
  (987399160274970600, [0x74dc]);
  (987629575123455600, [0x70c8]);
  (987687261885943700, [0x8fea]);
  (987918342289175300, [0x8eb2]);
  (988034083042836500, [0x5bc29738]);
  (988092003693167000, [0x64788fa3]);
  (988382111236350400, [0x62f17565]);
  (988673062852713600, [0x6208]);
  (988848041025092400, [0x5ba4]);
  (988964863468285000, [0x67f1]);
  (989374820118578300, [0x558a]);
  (989668678690311200, [0x56175c1d]);
  (989845409222319500, [0x8ab08c01]);
  (990081536840887500, [0x621a]);
  (990199810065792500, [0x53516696]);
  (990318223341914100, [0x7e5e7ed581a8]);
  (990436777001324300, [0x6b7c6bb2]);
  (990674306804215000, [0x73348b6f8bd1]);
  (990793283617774000, [0x5ddd]);
  (990912402154789300, [0x5b9b]);
  (990972014675183600, [0x5806]);
  (991151065752562300, [0x614c]);
  (991270611493039800, [0x6905]);
  (991450198491320800, [0x5ead]);
  (991510132565635200, [0x6f06]);
  (991690150616050000, [0x8ced8d4c]);
  (992232157362983900, [0x60ef616376f2]);
  (992777117839740300, [0x642c]);
  (992837852733802800, [0x502a]);
  (993325064416203000, [0x83f2]);
  (993447239141235100, [0x65916ca66dea7968]);
  (993508382524369000, [0x786b]);
  (993630781560457900, [0x8dcc]);
  (993876029997300000, [0x526a]);
  (993937436201255800, [0x732a8c6c]);
  (994121881381120600, [0x6c83]);
  (994183438785342000, [0x6350]);
  (994430048034861400, [0x63a0]);
  (994491795489741000, [0x8ce28d24]);
  (994615404899793600, [0x81088109]);
  (994677266949400300, [0x4fef]);
  (994925098550847000, [0x80c3]);
  (995049245059653500, [0x50bb739b746a]);
  (995173545883613300, [0x70f9]);
  (995360287301092800, [0x8d81]);
  (995484975596549000, [0x80ba]);
  (995547378094674000, [0x51a4]);
  (995672300034717100, [0x5e45]);
  (996236388023725700, [0x679d90c1]);
  (996299261336076600, [0x8b938ba9]);
  (996425126676796300, [0x72fc]);
  (996488118804863500, [0x54ac]);
  (996930178255403200, [0x675f]);
  (996993489431940100, [0x82f9860b]);
  (997183663815722000, [0x604b620063776a618d0f8d62]);
  (997247135731531000, [0x659c81e3]);
  (997692570766469100, [0x804280768a898b7d]);
  (998139998805961200, [0x8fa8901d]);
  (998525108396170900, [0x4e105ec9]);
  (998911706815817400, [0x6d69]);
  (999040905800197800, [0x632a]);
  (999819624855374700, [0x986b98a4]);
  (1000015255827450700, [0x53f95606]);
  (1000080551291736000, [0x638f7f55]);
  (1000211270264598000, [0x5c816b727cca]);
  (1000342160335641100, [0x98fd9971]);
  (1000604455567988200, [0x7cef]);
  (1000867440597927000, [0x99b39a70]);
  (1000933295061946800, [0x8058]);
  (1001131119063157400, [0x540f]);
  (1001197147457765000, [0x6614]);
  (1001329335183556600, [0x54c0]);
  (1001527944980719600, [0x5bb4]);
  (1001594236000714300, [0x5c6f900698e29965]);
  (1002126152148474200, [0x9a579a8c]);
  (1002526954288228100, [0x7e697ef3]);
  (1002929369318200700, [0x7dbf7ef5]);
  (1002996596211488800, [0x5bfa]);
  (1003198548484771800, [0x6cbc]);
  (1003265956643711100, [0x4ef2]);
  (1003400909430724600, [0x5e2d]);
  (1003671362604366400, [0x64b0]);
  (1003739090341462500, [0x51c46dd2]);
  (1004010460928622300, [0x5cb8]);
  (1004146422880226200, [0x6b3d94a6]);
  (1004282569940058200, [0x6dd8]);
  (1004555421405378700, [0x906e]);
  (1004623750755491900, [0x63e1]);
  (1004829019387266200, [0x9d099e26]);
  (1005172072896945100, [0x4efd]);
  (1005585296625436200, [0x6b32]);
  (1005654333562938200, [0x55d3]);
  (1005723418194356000, [0x53a85eda]);
  (1006000234980117400, [0x6109]);
  (1006277820168767600, [0x6cc46d29]);
  (1006416902249601900, [0x6cdb]);
  (1006625888741547700, [0x5580]);
  (1006695648074687300, [0x788e]);
  (1006905218532109100, [0x5c345c3793c894fe]);
  (1006975173064517600, [0x80f3]);
  (1007115229109820700, [0x95ca9614]);
  (1007185330760080300, [0x80b2]);
  (1007466229821185700, [0x6c28]);
  (1007536578047794300, [0x53a65ec8]);
  (1007677423141500100, [0x7fe0]);
  (1007747920148297100, [0x5783]);
  (1007818466888436300, [0x5e995edf902e]);
  (1007889063432137900, [0x7a3b]);
  (1008313692520283000, [0x6c57]);
  (1008384639667636400, [0x6dcb]);
  (1008740132398928700, [0x6572]);
  (1009025439297169400, [0x62637b517bc9]);
  (1009168398578128700, [0x4fd8985b98a0]);
  (1009239954931808100, [0x6500]);
  (1009311562525272500, [0x78b37aed]);
  (1009526693479523700, [0x680f6b04]);
  (1009670371665160200, [0x97ad]);
  (1009742288245030700, [0x7802]);
  (1009958348826021200, [0x5e105e33]);
  (1010030472882519500, [0x72d7]);
  (1010102648995360600, [0x646790ce]);
  (1010319490424743000, [0x611a]);
  (1010391875516575200, [0x62df64ec6c5d]);
  (1010681940984639000, [0x832b]);
  (1011337681039254800, [0x5835]);
  (1011410807185109400, [0x87ba]);
  (1011997749442390000, [0x85e4]);
  (1012514165197213400, [0x6566]);
  (1012662203714257000, [0x7626]);
  (1012810461710279000, [0x803f]);
  (1012958939837037000, [0x96cc]);
  (1013182071205180700, [0x5c41]);
  (1013331102529336500, [0x8b398c28]);
  (1013405701563008600, [0x65a965ac]);
  (1013629833147310100, [0x9661]);
  (1013779533774069500, [0x53e9]);
  (1013854468209947500, [0x656284c4]);
  (1014079609017993300, [0x54b39675]);
  (1014380587424283700, [0x6f0f]);
  (1014606917207809100, [0x7fc1932b9521]);
  (1014758088816341300, [0x7aa67ac7]);
  (1014833760405271900, [0x8ca98d29]);
  (1014909489299462700, [0x4e1e]);
  (1014985275585773000, [0x78d5]);
  (1015061119351259000, [0x90e1]);
  (1015137020683176200, [0x6328]);
  (1015365070953048800, [0x81ed]);
  (1015517393907100900, [0x5999]);
  (1015593642481134400, [0x5f13]);
  (1015822737655790000, [0x6e34]);
  (1015975759873866700, [0x6d78]);
  (1016052358881825000, [0x4ea1]);
  (1016282508580653000, [0x9a559a84]);
  (1016359343006253900, [0x78a7]);
  (1016436236512541500, [0x803d]);
  (1016513189190444400, [0x8721881f]);
  (1016744403166282300, [0x644a652470897210]);
  (1016898843351419800, [0x6241]);
  (1017053522423249700, [0x8299]);
  (1017441270097891800, [0x96a7]);
  (1017519000377747900, [0x73ca]);
  (1017674642432513600, [0x6cca77fd784580ce]);
  (1017986655166138000, [0x7434817e9a30]);
  (1018143027363756300, [0x4ec650d5]);
  (1018456507244293400, [0x5962]);
  (1018613616467497700, [0x6cc9785d820c]);
  (1018692263738559000, [0x804a]);
  (1018770972912240700, [0x8702]);
  (1018928577357787200, [0x65e88cec8d26]);
  (1019007472825390400, [0x552e]);
  (1019165450741342300, [0x76ca]);
  (1019323678622455300, [0x7f50]);
  (1019402886547388600, [0x4e14]);
  (1019561490862952100, [0x8f4e8f7f]);
  (1019640887453069700, [0x5d29]);
  (1019879456154690000, [0x7f9e]);
  (1019959105700916000, [0x5984]);
  (1020038818738217800, [0x4e11919c]);
  (1020118595367897500, [0x88e48932]);
  (1020358307827869700, [0x8a6d8be1]);
  (1020678820922764500, [0x58755c18]);
  (1020759109967623600, [0x5deb]);
  (1020919881706433300, [0x84ec958695eb]);
  (1021242202694590200, [0x7011]);
  (1021322945533050200, [0x6ce1]);
  (1021727640541069900, [0x699c96b696b8]);
  (1021971246020858000, [0x7272]);
  (1022133979986795500, [0x64588eac]);
  (1022296979207888700, [0x52d8]);
  (1022460244550277300, [0x8896]);
  (1022623776884350400, [0x5e558b748c34]);
  (1022705643446434000, [0x5589]);
  (1022869577909377300, [0x5180538c53ad632464e0]);
  (1022951646030520200, [0x5446632b]);
  (1023115984604893200, [0x6495]);
  (1023198255280039400, [0x5f18]);
  (1023362999963099400, [0x76b176ba7dec7f05]);
  (1023528016502195100, [0x55a79d289e2d]);
  (1023693305796025000, [0x5ac2964c]);
  (1023776053008028300, [0x626e]);
  (1023858868747751100, [0x711a]);
  (1024024706265028900, [0x54135687]);
  (1024107728270627700, [0x871c]);
  (1024523875354752900, [0x6602]);
  (1024607312989965000, [0x917f91c0]);
  (1024774397406446600, [0x55bb]);
  (1024858044420943200, [0x5375]);
  (1025193333921974300, [0x4f84]);
  (1025277332246947000, [0x5a075b0c74f7]);
  (1025614032901737400, [0x52cb52f377ee]);
  (1025867304459665700, [0x52df978b]);
  (1025951871060900100, [0x8f298f88]);
  (1026121219111533400, [0x5e3d649e]);
  (1026375780131476700, [0x582a634980da]);
  (1026630990818700300, [0x7cdf]);
  (1026716205992156900, [0x5ef7]);
  (1027658397116318800, [0x6f47701f]);
  (1027744492687715200, [0x5f04]);
  (1027830662447463300, [0x9a379a9a]);
  (1027916906523529200, [0x7f5a7f70]);
  (1028262628561915000, [0x7ff0]);
  (1028349246150699900, [0x88f4]);
  (1028435938830598500, [0x6cb8]);
  (1028609549985316100, [0x82ac8dd1]);
  (1028696468721774900, [0x707f71e6]);
  (1029219573663530000, [0x681668f2]);
  (1029307024478023400, [0x62d8]);
  (1029657594512786100, [0x6028]);
  (1029921330929394700, [0x6c226c2b778e]);
  (1030274064981191600, [0x563156d19192]);
  (1030362443245892300, [0x67a368d7]);
  (1030450899686865700, [0x82af]);
  (1030805509987540900, [0x7978798d]);
  (1031250548550288400, [0x90ca]);
  (1031429120026311900, [0x8ed28f69]);
  (1031876948808781500, [0x5c91]);
  (1032146611893541400, [0x604d]);
  (1032326792122467700, [0x798579aa]);
  (1032417004126781500, [0x53e5]);
  (1032507297586640700, [0x814a81d8]);
  (1032959991886218500, [0x70e4]);
  (1033232595417142200, [0x96cd]);
  (1033323628650556700, [0x8b198c26]);
  (1033597226632444300, [0x8086]);
  (1034146678564208300, [0x5c09]);
  (1034238548115915500, [0x68af95a39601]);
  (1034791544916861700, [0x6454]);
  (1034884009093583600, [0x5c465c4a]);
  (1035069194331690800, [0x51bb51cd9cf49e23]);
  (1035161915710610200, [0x7784]);
  (1035254723141865400, [0x6674]);
  (1035347616785331400, [0x73de]);
  (1035533663350623400, [0x9119]);
  (1035720056694429700, [0x6e836f70]);
  (1036281330384925400, [0x62d0]);
  (1036469123867345500, [0x6c94]);
  (1036751476996106000, [0x5b55617762fe]);
  (1036845772146893000, [0x8eaf8ec0]);
  (1036940156297363700, [0x68d5]);
  (1037034629615679800, [0x6b3e]);
  (1037129192270480600, [0x54bd]);
  (1037223844430883600, [0x6c2f]);
  (1037318586266487800, [0x6de47e737f34]);
  (1037508339644106800, [0x4fa850d1]);
  (1037984304369405600, [0x6ef49edb]);
  (1038270974417613200, [0x5f0368c4]);
  (1038462545357427100, [0x54d1555e]);
  (1038654483996007500, [0x5315]);
  (1038943084484921000, [0x535c5cad5dba5e905eec]);
  (1039135948575561500, [0x6ca76ec4]);
  (1039232520287557400, [0x5ce15cfd]);
  (1039329185350667000, [0x754f]);
  (1039522796253353600, [0x7d0b7eb9]);
  (1039619742455808400, [0x53647e8f7f208caf8d2e9e75]);
  (1039911146255993300, [0x5c3f7e2b7f1d]);
  (1040008469864648600, [0x660c8cb68d2c]);
  (1040301010297559000, [0x829d]);
  (1040594409041037800, [0x7fdf]);
  (1040692400229672600, [0x723d]);
  (1040790487535231900, [0x7bb1]);
  (1040888671146457500, [0x592e]);
  (1041381040432636000, [0x51d16e4a]);
  (1041479805872763400, [0x6c0f]);
  (1041677629873974000, [0x6ed58c6b]);
  (1041875845994373000, [0x8a6b8be7]);
  (1041975101585648200, [0x5140]);
  (1042173908808186800, [0x65f16db5]);
  (1042373112061310900, [0x9b45]);
  (1042472862693023400, [0x4e32]);
  (1042572712925982300, [0x846b]);
  (1042772712992649000, [0x5e9c607c60f165f766e0]);
  (1043073465099044500, [0x6846]);
  (1043576737424505700, [0x52d2]);
  (1043677696544640700, [0x764c]);
  (1043778757695233100, [0x5ba05bf5]);
  (1044082555397240800, [0x7ad68c4e9dd39e67]);
  (1044184026740295400, [0x7948884d]);
  (1044285601152279000, [0x67959a199a97]);
  (1044387278842787700, [0x90aa]);
  (1044489060022057800, [0x8fc4]);
  (1044795026604453300, [0x53855ef3]);
  (1044897223854022700, [0x4ea8]);
  (1044999525653226200, [0x925b94c5]);
  (1045512610411460500, [0x53ee]);
  (1045821729668427800, [0x593762e964c7]);
  (1046028341312174900, [0x563f8000]);
  (1046235380723605800, [0x7b4b]);
  (1046339061396449700, [0x6247663c665d88d89189]);
  (1046442849677691800, [0x75d5]);
  (1046859083369160500, [0x6a316afb6b20]);
  (1046963413060418300, [0x65cf]);
  (1047067851712209000, [0x96c1]);
  (1047172399552364300, [0x662d]);
  (1047381823712675700, [0x57518b6c]);
  (1047591687378367800, [0x4e565c615c62]);
  (1047696784602965400, [0x7891]);
  (1047801992398045800, [0x86958836]);
  (1047907310996511600, [0x76fc]);
  (1048012740632002200, [0x54358c41]);
  (1048860203331099500, [0x5ba682b399529976]);
  (1049286643209745200, [0x74f6]);
  (1049500547034620200, [0x84e69a40]);
  (1049607670772770000, [0x6292]);
  (1049822263129797800, [0x632164cb69a8]);
  (1050037316976120600, [0x65fa]);
  (1050360767392886500, [0x99db9a76]);
  (1050468817106261800, [0x6284640f9913997f]);
  (1050576983693335900, [0x6746687f]);
  (1050793668501845000, [0x6068]);
  (1050902187231973700, [0x55836749692d6a62]);
  (1051337443631857800, [0x7e8c7eed]);
  (1051446554390091300, [0x61d261f6]);
  (1051555784329952200, [0x51b56cc17422]);
  (1051884191850071200, [0x6170]);
  (1052213681439756400, [0x6b8a91e39493]);
  (1052323752997375000, [0x8ef88f74]);
  (1052433945845990800, [0x53955ec16b47]);
  (1052544260253206500, [0x575f58b3]);
  (1052654696487511800, [0x620e6f158a9399289986]);
  (1052875935515805800, [0x8f9c9a3e9aa1]);
  (1052986738851242000, [0x54fa]);
  (1053097665096670500, [0x77bf7941]);
  (1053208714525073300, [0x5339]);
  (1053319887410342300, [0x98039877]);
  (1053654149560011400, [0x4e5e]);
  (1053765819030018800, [0x5f27]);
  (1053877613340153000, [0x75f4]);
  (1053989532769854500, [0x7fcc]);
  (1054101577599503500, [0x722c]);
  (1054663692626546400, [0x614e]);
  (1054889426356711400, [0x8205]);
  (1055002484593740000, [0x5632]);
  (1055115670797108300, [0x7d397ecd]);
  (1055342428263886500, [0x7261]);
  (1055569701088986700, [0x52385acc672f8853886c896f99b49a6f]);
  (1055683531493992800, [0x959495f5]);
  (1055797491620286000, [0x8af78bbd]);
  (1056140153291950800, [0x840c9063]);
  (1056369248466606300, [0x51f85fcc676f68b3]);
  (1056713878330965200, [0x523792d2950b]);
  (1057059700001260800, [0x5ce8970e]);
  (1057290913977098900, [0x4f50725f904f]);
  (1057406721749161500, [0x59e8]);
  (1057754951932749000, [0x4f3a4f97]);
  (1057987780908708200, [0x83ca85fb]);
  (1058338043963828300, [0x52c378b19e7c]);
  (1058455071478647400, [0x59ec]);
  (1058806978000167000, [0x6817]);
  (1059042272226369600, [0x7504]);
  (1059396254896882000, [0x95d59619]);
  (1059514528121787000, [0x549563636417]);
  (1059870189433271600, [0x873f]);
  (1059989024860209600, [0x923494c3]);
  (1060465783808556800, [0x60f6]);
  (1060944826640820000, [0x891a]);
  (1061064946775383400, [0x5cf074647476810f81df9f0e]);
  (1061426175343974900, [0x70db71ed79ed92b39510]);
  (1061546875418978400, [0x5564559856da]);
  (1061667721355135200, [0x9d1b9e33]);
  (1061909852224036200, [0x6d668e2a]);
  (1062517756831674600, [0x88f8]);
  (1062761957197229600, [0x82738277]);
  (1063006755361093700, [0x72d07b77]);
  (1063375079902723300, [0x543654506da66f6499459992]);
  (1063621385445963200, [0x6da16e268d088d60]);
  (1063991985005394800, [0x52a368cd]);
  (1064115824030509600, [0x8c4c]);
  (1064239816606841600, [0x522e]);
  (1064488263939607800, [0x75787a9d7aa9]);
  (1064737330070853000, [0x66206eaa]);
  (1064862096150668500, [0x5bd377a977da]);
  (1065362722978483000, [0x8cc48d3f]);
  (1065488272273066000, [0x53ae5edd]);
  (1065613979392071200, [0x71157165]);
  (1065739844732790900, [0x6ee86ff1]);
  (1065992051676061800, [0x6d016f54]);
  (1066118394080739000, [0x5948]);
  (1066244896311397700, [0x518a518c]);
  (1066371558772917000, [0x8de18ff9]);
  (1066498381871716500, [0x6405652a]);
  (1066752511614583700, [0x606f7ccd]);
  (1066879819079263600, [0x5d1b5f5d]);
  (1067134921258424100, [0x545556146960]);
  (1067262716802973300, [0x508d547b9177]);
  (1067390675873535800, [0x6717]);
  (1067518798889140700, [0x6d60]);
  (1067647086270429600, [0x9db49e64]);
  (1067775538439665300, [0x5524559a]);
  (1068161887922169700, [0x7f817f88]);
  (1068549735855026800, [0x93969501]);
  (1068809139372731400, [0x865e]);
  (1069069217542737000, [0x72e1]);
  (1069199510720778800, [0x743c74ca]);
  (1069329973883445300, [0x6e24]);
  (1069460607474850800, [0x8cfa8d5a]);
  (1069722387729058600, [0x62c26668]);
  (1069853535288839700, [0x6df982ad]);
  (1069984855071335900, [0x7bc7]);
  (1070379852293267200, [0x947094a5]);
  (1070511865513759500, [0x553e73ab]);
  (1071041668077515000, [0x8302]);
  (1071440870204468800, [0x7f759a82]);
  (1071841672344222700, [0x92c194dd]);
  (1071975630837128300, [0x507f511f601c61907586]);
  (1072244087374195200, [0x6ee56feb]);
  (1072513266540766400, [0x7c07]);
  (1072783172237682900, [0x7a3f]);
  (1072918398762684200, [0x929894ed]);
  (1073053808397457000, [0x5256]);
  (1073461140936220700, [0x5824]);
  (1073733620668839200, [0x6df56e0a]);
  (1073870139461373300, [0x59935eb8819d8910]);
  (1074006844882526600, [0x6487]);
  (1074143737443260700, [0x6389]);
  (1074280817656638700, [0x7d177eb1]);
  (1074555543104152400, [0x6bc5]);
  (1074693189375024700, [0x5d69]);
  (1075107268641627900, [0x52ab566a]);
  (1075662055085399700, [0x93e29556]);
  (1075801233952682000, [0x685098389888]);
  (1075940606797542300, [0x5239524e]);
  (1076359894623546000, [0x655e97f597fb]);
  (1076780947877180200, [0x6fd27015]);
  (1076921693853968300, [0x99ed9a87]);
  (1077203781488132400, [0x50a35bdd5be2]);
  (1077345124267847000, [0x7d0a86ee883b]);
  (1077912501676437900, [0x77bb7a917aaf]);
  (1078054850454923200, [0x86c7]);
  (1078340157353164000, [0x4f1e509864d2672675ab]);
  (1078483116634123300, [0x60b695f7]);
  (1079200994806824000, [0x6b6777eb77ef8b208c23]);
  (1079489595295737400, [0x7fa17fa8]);
  (1079634208480737500, [0x54e8664399d99a78]);
  (1079924063756138400, [0x5b626b896c1b]);
  (1080069307064170000, [0x7bad]);
  (1080214761635269500, [0x7ae3]);
  (1080360428084915900, [0x6d74]);
  (1080506307031282000, [0x72e972f17344]);
  (1080945225073158200, [0x540660ed615a]);
  (1081238911040489200, [0x82ef]);
  (1081386078101634700, [0x76ea817a823182598361]);
  (1081976921770251500, [0x79bd]);
  (1082125179766273600, [0x5e055e2567ec8aa38bec]);
  (1082571277160336200, [0x7c9f95a895fa]);
  (1082869784844681500, [0x9756]);
  (1083019373503839800, [0x719283679eef]);
  (1083169186265942000, [0x59a898469897]);
  (1083469486791919000, [0x6930]);
  (1083619975909861000, [0x6f20]);
  (1083770691838918000, [0x6ede6eef]);
  (1083921635263803700, [0x8611]);
  (1084072806872335800, [0x517d524252917378]);
  (1084375837407253600, [0x627064fe]);
  (1084679789009043400, [0x4fa550e5]);
  (1084832111963095400, [0x67dc6ac39a5f9aa4]);
  (1084984667293979200, [0x62c8]);
  (1085443734664839000, [0x5fbd]);
  (1085597226636647500, [0x5154]);
  (1085750954568536000, [0x4e52674f6ba16baf]);
  (1086523159177927000, [0x5de2]);
  (1086678318247069000, [0x50b2]);
  (1086833718433742400, [0x6d3c7aaa]);
  (1086989360488508200, [0x95a995fd98179887]);
  (1087145245165437400, [0x79c9]);
  (1087614362523025400, [0x5761]);
  (1087771225300288000, [0x821f]);
  (1087928334523492200, [0x4ea669b4]);
  (1088085690968235200, [0x54ce]);
  (1088401148643086800, [0x500d]);
  (1088559251442818600, [0x5ac1]);
  (1089194174210684500, [0x5384]);
  (1089513153747494600, [0x4e195df78e0c8e8a9f9c9f9f]);
  (1089673025883864300, [0x76d281069b42]);
  (1089833154020561600, [0x8c9e8d1e]);
  (1089993538978759000, [0x8235]);
  (1090315082664156400, [0x64e6]);
  (1090799345111735300, [0x6f7c7fc58b4f8ba5]);
  (1090961288466965600, [0x8f9f95e2]);
  (1091123494504152400, [0x90ac9114]);
  (1091448698042790000, [0x6101664f]);
  (1091774962606271700, [0x8774]);
  (1091938494940345000, [0x62da65a5780d]);
  (1092266364086514800, [0x574e]);
  (1092430702660887800, [0x5b75840e]);
  (1092595311751554600, [0x5b85]);
  (1092925345054420200, [0x581558ae8513]);
  (1093090771064022900, [0x5f0a]);
  (1093256471184785800, [0x6cfd6fa47b5b7be9]);
  (1093588697403983500, [0x4fa04fe06deb74357a837aca7d5e7ede]);
  (1093755225335889700, [0x62bc8708]);
  (1094089115462441200, [0x8854929c]);
  (1094256479518244200, [0x5f987235]);
  (1094424124150969400, [0x5378665566886f84]);
  (1094592050302941500, [0x5220522a62969d3f9e3d]);
  (1094760258921240000, [0x5d2d5d8482c78466]);
  (1094928750957731900, [0x4f6350ad607361c79b41]);
  (1095097527369103800, [0x6b6a]);
  (1095266589116894600, [0x54755760589c8682879e]);
  (1095605572492345700, [0x9f20]);
  (1095945708874694800, [0x5dcd]);
  (1096629472222455200, [0x602168ad]);
  (1096801146084360600, [0x722a8d1b8d638fe6]);
  (1096973115172313300, [0x520180a2]);
  (1097145380503457800, [0x82df]);
  (1097317943100204800, [0x658b9f4b]);
  (1097490803990266700, [0x5df1]);
  (1097663964206694400, [0x51885ca1]);
  (1098534291719524500, [0x554a978d]);
  (1098709269891903300, [0x685380f0]);
  (1098884554774644900, [0x69d09017]);
  (1099060147444871300, [0x81808db4]);
  (1099236048985389200, [0x6d476f86]);
  (1099412260484729100, [0x54fd6c796d36842487a2]);
  (1099588783037186200, [0x60656289803b]);
  (1099942765707698600, [0x5080598a]);
  (1100120228043535400, [0x70d89a5b9a7f]);
  (1100298005868135200, [0x70ad]);
  (1100654512484584800, [0x4f5f7e617ee3]);
  (1101191666864776000, [0x5a765b386089866b87f2]);
  (1101551379482860900, [0x58305eb985728604]);
  (1101912390705270900, [0x77e2]);
  (1102093386229794800, [0x898396fe9727]);
  (1102456363034852800, [0x7def7eac846c]);
  (1102638346706551300, [0x60f9]);
  (1102820662162702800, [0x53a25ec278be]);
  (1103186293283013900, [0x762b7671]);
  (1103369611391180000, [0x4fca659f756a]);
  (1103553266171910000, [0x500f545c55da6bd76cae]);
  (1103737258864110900, [0x528868b5]);
  (1104106262972856300, [0x56ca7529]);
  (1104291276901672300, [0x60e761fc84df858a]);
  (1104476633766604700, [0x9c589c9f]);
  (1104662334841326000, [0x54d75629]);
  (1104848381406617900, [0x87e08936]);
  (1105408606961484900, [0x527f]);
  (1105596048440920000, [0x7184]);
  (1105783841923340000, [0x8ce48d31]);
  (1105971988733310400, [0x7076]);
  (1106538562486878200, [0x51f9]);
  (1106728136003368000, [0x7b28]);
  (1106918069583733400, [0x7f9f7fa5]);
  (1107108364598342000, [0x9d3b9e3f]);
  (1107299022425400100, [0x54c4]);
  (1107490044451012000, [0x535e5ad45b2a6a44900d]);
  (1107681432069240500, [0x5e0662ef6e2d]);
  (1108065309699957100, [0x502d6bcb79659c099cc7]);
  (1108257802540915500, [0x8a508bc8]);
  (1109031500791130800, [0x5757584a]);
  (1109420606340427400, [0x8e44]);
  (1109615728353553600, [0x5be89c579cde]);
  (1109811231837133900, [0x5ac96ed48654]);
  (1110007118285667200, [0x4f43759994729576]);
  (1110203389202452000, [0x68f18e72]);
  (1110400046099656100, [0x501a5189924094be]);
  (1110597090498386100, [0x6b798815]);
  (1110992347929968500, [0x5eb668d2717d]);
  (1111190564050367500, [0x618e]);
  (1111389173847530500, [0x6026]);
  (1111787580749018000, [0x61ca]);
  (1111987381015285200, [0x68da961c]);
  (1112388183155039000, [0x64c2]);
  (1112589188247841500, [0x76ef]);
  (1112790598185011600, [0x5a345afb]);
  (1113194639138712100, [0x601566dd77e980388073]);
  (1113397273453235300, [0x4ed5]);
  (1113600319208273600, [0x732b8c9398fe9970]);
  (1113803778078052400, [0x6273]);
  (1114007651747037100, [0x54285678947c9523]);
  (1114211941910017200, [0x838e]);
  (1114416650272189600, [0x66d9]);
  (1114621778549245300, [0x6dc07d627eda8dfb8e8b]);
  (1114827328467455000, [0x67d1]);
  (1115033301763756000, [0x6cbe8da398249890]);
  (1115653779452444300, [0x8a0a8baf]);
  (1115861463846928300, [0x868a]);
  (1116278131116412800, [0x82db97cc97e7]);
  (1116487117608358800, [0x715e8475]);
  (1116696541768670200, [0x7aa57aba]);
  (1117116710454040200, [0x4fae]);
  (1117327458687996800, [0x6cfc6f51]);
  (1117538652008311000, [0x66ae]);
  (1117750292298948800, [0x7b75]);
  (1117962381455862600, [0x62547b1b99c19a73]);
  (1118387914012876500, [0x657787008d7496689695]);
  (1118601361265739800, [0x7be1]);
  (1118815265090614700, [0x915d919e]);
  (1119244450298768700, [0x6490649178cb]);
  (1119675485448880900, [0x627c62a891879df99e70]);
  (1120108386557839500, [0x543c7cdc]);
  (1120325541909190300, [0x81e788d9]);
  (1120543169851449900, [0x634d66419375952e]);
  (1120979851768084000, [0x8f1f8f8d]);
  (1121198909906065700, [0x7316]);
  (1121418448962409400, [0x97099ef4]);
  (1121638471053369600, [0x7da27ef88e09]);
  (1122301456907236500, [0x56a356c25a045a415ae966916986888b]);
  (1122968867616005900, [0x6c5b70c2721b]);
  (1123192331396147600, [0x5a4973b28ae78c10]);
  (1123416295655498000, [0x532a7d687ed2]);
  (1123640762640880400, [0x542d62c777378cca8d3c]);
  (1123865734614282000, [0x5ced914b]);
  (1124317202649734600, [0x665266ec6df3]);
  (1124543703312819800, [0x4e4f964796b4]);
  (1124770718166273700, [0x7f8c]);
  (1124998249549987300, [0x5e87980c9882]);
  (1125226299819859800, [0x8cdc8d50]);
  (1125454871347945300, [0x6977]);
  (1125913587748636000, [0x62b96d466f3f9bc99ca4]);
  (1126143737447463900, [0x579b7caa7cde9f529f7f]);
  (1126374418057255300, [0x7281]);
  (1126837381847129600, [0x6115676069d37dbd7ef0]);
  (1127069669988743600, [0x51db51dc85e98f3e8f97]);
  (1127302498964702700, [0x515c83e0867e876698399893]);
  (1127535871299324700, [0x5bc76c727960]);
  (1128004256230567400, [0x99dd9a7c]);
  (1128239273965062700, [0x5915811381bf]);
  (1128474845334308600, [0x832f8e42]);
  (1128710972952876500, [0x5492]);
  (1128947659453903200, [0x55e17280]);
  (1129184907489266200, [0x76967d8f7ee581c0]);
  (1129661098865290600, [0x8fab8fae971c97a0]);
  (1129900047605028700, [0x4ffa8304]);
  (1130139568677624200, [0x752c]);
  (1130379664831378000, [0x557c81c291d89489]);
  (1130620338834434500, [0x7e467f2a]);
  (1130861593474973000, [0x56365c946020]);
  (1131103431561401000, [0x5d4c60bc8fc2]);
  (1131345855922551800, [0x8ff09776]);
  (1131588869407881000, [0x4ead575d58e96ea2900a905c]);
  (1131832474887669100, [0x8b2c8c2c]);
  (1132076675253224200, [0x595a8b0a8c0e]);
  (1132321473417088200, [0x5a4a6e9c79b9]);
  (1132566872313244800, [0x53e068d8758a86af8d168d4e9ab0]);
  (1132812874897331100, [0x841d863f8c79]);
  (1133059484146850500, [0x718f]);
  (1133554534662836100, [0x6a808153]);
  (1133802981995602200, [0x7897]);
  (1134052048126847500, [0x5527817f]);
  (1134301736146706200, [0x83cc8af68c0c9903997a]);
  (1134552049168518000, [0x6d1270517a9f]);
  (1134802990329060500, [0x70ab9bca9ca8]);
  (1135559614367392300, [0x54ee62f7]);
  (1136067229670578300, [0x9640]);
  (1136322006878458200, [0x79bf79c3]);
  (1136577434858967800, [0x96cf96db]);
  (1136833516945135000, [0x55c55a9a6ec7]);
  (1137090256495659800, [0x80a4819a]);
  (1137605721554526300, [0x7a209773]);
  (1137864453911021400, [0x8340]);
  (1138123857428726000, [0x61946e4d]);
  (1138383935598731600, [0x4f3d7d617edc]);
  (1138644691939439800, [0x9ebe]);
  (1138906129996847000, [0x707c]);
  (1139168253344834300, [0x541f54c66c81]);
  (1139431065585461200, [0x6c2e6c74]);
  (1139694570349261800, [0x51a55e37]);
  (1140223672112703400, [0x5f0f]);
  (1140489276518515000, [0x6e5b95b996099a629a74]);
  (1140755588260463300, [0x620a9ecf]);
  (1141290348893122800, [0x54fc572a]);
  (1141558805430189800, [0x7ddd7f097ffc]);
  (1141827984596760900, [0x87188dcb]);
  (1142097890293677400, [0x58216094917191ac]);
  (1142368526453451600, [0x7f7290af]);
  (1142639897040611400, [0x54af5858]);
  (1142912006052047300, [0x5be56ea5829c856a]);
  (1143184857517367800, [0x80ed]);
  (1143458455499255200, [0x65a7]);
  (1143732804093830200, [0x7199]);
  (1144007907431019300, [0x5669666668a8690e]);
  (1144283769674927200, [0x55825983602f9935]);
  (1144560395024216200, [0x77d7]);
  (1145115952008676500, [0x58ec7a92]);
  (1145394892217434300, [0x65836bd9]);
  (1145674612679540500, [0x4e9b]);
  (1146518499544127000, [0x708a88229042]);
  (1146801385164174600, [0x83cf]);
  (1147085073297694700, [0x51f38877979197c3]);
  (1147369568510917800, [0x67e06ab8]);
  (1147654875409158500, [0x64006519]);
  (1147940998637261600, [0x6123788d7919]);
  (1148227942880056900, [0x63e38b5c8c31]);
  (1148515712862818500, [0x54c780e58517]);
  (1148804313351732000, [0x9b8e9c87]);
  (1149093749154368500, [0x809b8aed8c15]);
  (1149384025120164500, [0x65cc6f3371a0]);
  (1149675146140910400, [0x501493109525]);
  (1149967117151244000, [0x682a6c909b779c7f]);
  (1150553629096483700, [0x63ba647b889c896a9739]);
  (1150848180119459300, [0x4ea25e18797f79847c3e92f8952f]);
  (1151143601309202500, [0x6b49]);
  (1151439897822268100, [0x54809a4d9a81]);
  (1152035137674997700, [0x5bf8]);
  (1152334091559834300, [0x6e3a851a90b0]);
  (1152633941859459900, [0x710a]);
  (1152934693965855600, [0x52438a858bdb916c]);
  (1153236353319798000, [0x5b09]);
  (1153538925411451800, [0x714e86799697]);
  (1153842415780967200, [0x7d817ed19d5d9e45]);
  (1154146830019090000, [0x543b6c768087959895f8]);
  (1154452173767779000, [0x60e6]);
  (1154758452720833600, [0x741074637cbd91b4]);
  (1155065672624530600, [0x6c556cf870187ca47cb59c239ca5]);
  (1155373839278271400, [0x4ee16ee97058]);
  (1155682958535238700, [0x6538818f]);
  (1155993036303063600, [0x52fb53005742]);
  (1156304078544502700, [0x7095874c]);
  (1156616091278127100, [0x756c757280848759]);
  (1156929080579020000, [0x6f8e7fe1]);
  (1157243052579486800, [0x6ccc75c975d9800d]);
  (1157558013469776300, [0x5f26]);
  (1157873969498813200, [0x58a95ae1]);
  (1158190926974941000, [0x65568888903e]);
  (1158827871803489100, [0x761f81659214949e]);
  (1159147872076556100, [0x561f7f3090a697c1]);
  (1159468899639581000, [0x6dd979d2]);
  (1159790961109585300, [0x921594ae]);
  (1160114063167729800, [0x57df77aa7cb37e3e7ee9]);
  (1160438212560147000, [0x6ee46ffe]);
  (1160763416098784600, [0x6346]);
  (1161089680662266200, [0x5b9998019875]);
  (1161417013196763300, [0x6e328354]);
  (1162074910306567500, [0x68a7]);
  (1162405489120017400, [0x560084bd]);
  (1162737164382616800, [0x59e55e16]);
  (1163069943391884200, [0x76ce]);
  (1163403833518435700, [0x7c4d]);
  (1163738842206964000, [0x504c57ab588a60ec611c7109]);
  (1164074976977234500, [0x72d97d337ec57f9a]);
  (1164412245425098300, [0x550782d4]);
  (1164750655223522500, [0x5d0e64ac86508df58e10]);
  (1165090214123636200, [0x5fad6893901b]);
  (1165430929955797600, [0x57a658be80c18105]);
  (1165772810630676100, [0x560890229163]);
  (1166115864140355100, [0x4f8f591f592080ae83bd8ad28c059aaf]);
  (1166460098559452300, [0x631f633e8292]);
  (1166805522046261200, [0x52b152f5731d]);
  (1167152142843909800, [0x6ca56caa6eec701d]);
  (1167499969281542200, [0x5eca675e888d]);
  (1167849009775519000, [0x640164f17a3d899389c58e4a92239499]);
  (1168199272830639400, [0x532365bc6dc477b38155]);
  (1168550767041383800, [0x4ed7]);
  (1168903501093180700, [0x4fe8513c62488aa68bf5]);
  (1169257483763693100, [0x61e6671472ac]);
  (1169612723924129800, [0x5320]);
  (1169969230540579400, [0x814b9e1a9e66]);
  (1170327012675367800, [0x55dc9905997c9d1f9e31]);
  (1170686079488440600, [0x6c1f75ca86e493df94f29c569cdc]);
  (1171046440238770500, [0x77287bc68e22]);
  (1171408104285789300, [0x5eb5]);
  (1171771081090847300, [0x563b]);
  (1172135380218697300, [0x60a8808b]);
  (1172501011339008400, [0x53fd56306127636770d9]);
  (1172867984227904600, [0x6d3d7e437ef783bc84f4868c98f49974]);
  (1173236308769534400, [0x53218471852590e2]);
  (1173605994957666900, [0x67b8]);
  (1173977052897320500, [0x6b867a98]);
  (1174349492806418700, [0x83398cd18d489bf09cb6]);
  (1174723325017479400, [0x63986c7e8b0e8c1c]);
  (1175853280542872700, [0x5ad8]);
  (1176232787639728000, [0x60556a598a5b8bc59131]);
  (1176996150125235000, [0x609f9ed4]);
  (1177380027755951600, [0x7afa81b39bff9cca]);
  (1177765384687550600, [0x71ac]);
  (1178152232365342700, [0x5e015e6360cb]);
  (1178540582367982400, [0x6fee70fd7688783e792b]);
  (1178930446409548200, [0x4f366387785a7904]);
  (1179321836341661700, [0x55bd560d]);
  (1179714764155650600, [0x549a5f57]);
  (1180109241984752400, [0x599260967315737c776b86db8fe5]);
  (1180505282106362000, [0x54865520562e7266729b74338e0a8e34]);
  (1181302099071279700, [0x55066dbf89128a238bc08ff8]);
  (1181702901211033600, [0x4fed5109]);
  (1182105316241006100, [0x795b]);
  (1182509357194706600, [0x514682d1]);
  (1182915037264268100, [0x776697dc97ec]);
  (1183322369803031600, [0x6a58]);
  (1184142046523449600, [0x57649170]);
  (1184554418241835800, [0x5fcf61fa689770bd71be7dba7eee92e49504]);
  (1184968497508438800, [0x4ff8759f7627]);
  (1185384298523305300, [0x567661687a8d7ac5]);
  (1185801835664353400, [0x5ae367ff70f78dfa99ff9a8f]);
  (1186221123490356900, [0x5d06606a7a1a]);
  (1186642176743991300, [0x6342777e7bf17c6c]);
  (1187065010354943300, [0x77ad7898814c9183]);
  (1187489639443088400, [0x6590]);
  (1187916079321734300, [0x4e4d6d32]);
  (1188344345500934400, [0x532e5331772979e7971e]);
  (1188774453690873400, [0x59fb874e880d8fb1]);
  (1189206419805325000, [0x5431568e]);
  (1189640259965184800, [0x53c95eff7838]);
  (1190075990502080400, [0x6a1f7fd87ff98afa8c1a]);
  (1190513627962060300, [0x4e9f5ab25ae6]);
  (1191394690930275900, [0x5578562f5f7982ae87fe]);
  (1191838150637062400, [0x773a87cb]);
  (1192283585672000400, [0x51cb]);
  (1192731013711492400, [0x5657634f63b364c4652b797779b185119ab7]);
  (1193180452670276500, [0x5a365d16766b767286fb8715]);
  (1193631920705729100, [0x4e384fe95006572d8d66]);
  (1194998684578595400, [0x6eba8ecb8f67]);
  (1195458455503458400, [0x625268416d4a6fc185af]);
  (1195920350089088000, [0x548b584c8cbd8d3b]);
  (1196384388044738100, [0x626f]);
  (1196850589355319300, [0x5e9a]);
  (1197318974286562000, [0x79be848285d0]);
  (1197789563390303200, [0x5fff6845]);
  (1198262377509897700, [0x65ed716e98719885]);
  (1198737437785757500, [0x59a95af5607b60fb61a76daa7f427f4c]);
  (1199214765661023200, [0x5fd060dc76d4]);
  (1199694382887372500, [0x541d548456b77e5a7f2d901e]);
  (1200176311530967500, [0x680868e7745c7cd5866c866f]);
  (1200660573978546400, [0x642a800693189524]);
  (1201147192943663600, [0x50265462608560a69f3e]);
  (1201636191473082800, [0x72f073197425]);
  (1202127592953325700, [0x76fe85378594]);
  (1202621421117383900, [0x681382a598b698d3]);
  (1203117700051596700, [0x60148a6e8be0]);
  (1203616454202700800, [0x5b7070eb71d9]);
  (1204117708385055000, [0x592f745f815497f6]);
  (1204621487788050900, [0x50fb8309]);
  (1205127817983705500, [0x608d69df6ab36dd1804b807e9b44]);
  (1205636724934452700, [0x683e6b127889920994a0]);
  (1206148235001129600, [0x60f47dbb7efd7fe9]);
  (1206662374951171700, [0x6452909d913a]);
  (1207179171967016000, [0x621b651867f56805733f91759c779cc4]);
  (1207698653654726200, [0x5ffb]);
  (1208220848052841300, [0x574d5944]);
  (1208745783641455800, [0x5567561658f369546bbc6be16c0877a57dd87f04916591c9]);
  (1209273489351540200, [0x6f9c703e7a84]);
  (1209803994574509500, [0x4fcf6002616b64a9651265226e44874987ec]);
  (1210337329172045700, [0x7470817c91229766]);
  (1210873523486184300, [0x515651576bb46bc6828d]);
  (1211412608349672000, [0x6cfe6d877329875787838f1c8f8e]);
  (1211954615096605900, [0x6f297e9c7f06]);
  (1213047522149824800, [0x62ec87378fed9774]);
  (1213598487730921800, [0x888588ca8efc8f76]);
  (1214152505768483300, [0x4f8393e49542]);
  (1214709610273428800, [0x4f5d4fda57ae58d566a766d66f4d6ff07b52]);
  (1215269835828295800, [0x664c67897c0c9257942e94b39570]);
  (1215833217600121500, [0x4ffe64ce679068867e097f19]);
  (1216399791353689300, [0x552255e9789f835e854e871787788ac28c04923e94c0]);
  (1216969593465153000, [0x4f586cd77a798026918b]);
  (1217542660936051400, [0x5cb76cf38167]);
  (1218119031407726500, [0x504355eb56c175a47e397f258a7c8bd98f458f95]);
  (1218698743176159000, [0x5494592d853a85fa8a8a8b04]);
  (1219281835207238500, [0x62d784b4934d9540]);
  (1219868347152478300, [0x606370af7b197dde7f0e83858403849e]);
  (1220458319365197000, [0x5254606c65e684bf]);
  (1221051792917178400, [0x635e64889edd]);
  (1221648809615828800, [0x6414685468666a3a6fd17028809897ed]);
  (1222249412021850100, [0x4eb5575b58c7893b89ac89ca91dc]);
  (1222853643467446400, [0x4f6f60f062d97bdd82bd9e9d]);
  (1223461548075084500, [0x594e5ad65c795dc55dd4768280468892]);
  (1224073170776828200, [0x67ab67de695375d27662821c8eba93a794e0]);
  (1224688557334266000, [0x778c931a94ee]);
  (1225307754359058200, [0x5fc661b662ee7fa7]);
  (1225930809334121600, [0x530d60c661a96ce373c0]);
  (1226557770635481100, [0x60bb77a0]);
  (1227188687554807700, [0x527d780c]);
  (1227823610322673500, [0x892a]);
  (1228462590132550700, [0x7d467eca7f94927b94ec96c0]);
  (1229105679165579800, [0x5e4c631a646f]);
  (1229752930616141500, [0x519751ff533f537f5421816e947f]);
  (1230404398718260800, [0x53f16c8582b9]);
  (1231060138772876700, [0x4f0e5d47]);
  (1231720207176012000, [0x51bc64796e6e7dcb7eef8568877688d59713]);
  (1232384661447878700, [0x74ee7515]);
  (1233053560262958500, [0x61a86a716ae598af98d2]);
  (1233726963481092800, [0x77dc8ab98bfd]);
  (1234404932179630700, [0x5f7768297e457f2b88f98c828f2f8f91]);
  (1235087528686670700, [0x560e620d637b65557d6e8222]);
  (1235774816615446900, [0x599e5a7a5f1b78fa82b88c8c90d793d794ff]);
  (1236466860899904300, [0x548f5f70600560b563ea867187688a609157]);
  (1237163727831513600, [0x6a846e23835f85888e518ea1]);
  (1237865485097378300, [0x8725926494a99e92]);
  (1238572201819687600, [0x6da36e1970ef7901]);
  (1239283948596574000, [0x65a47b037be4]);
  (1240000797544435200, [0x8d138d4393339530]);
  (1240722822341783900, [0x873b908293a6954f]);
  (1241450098274691900, [0x5ebe6c41]);
  (1242182702283899200, [0x6cfb700979f8]);
  (1242920713013661400, [0x61ff71e5]);
  (1243664210862413300, [0x4f2b4f4750da6c82]);
  (1244413278035329000, [0x5a3c76199ab8]);
  (1245167998598867200, [0x67b76ee6706470997e1d7f1c990c9975]);
  (1245928458537389200, [0x6f667bab7c2b8902991e996f]);
  (1246694745811946200, [0x63766402645f86d98ddb98c698d9]);
  (1247466950421337200, [0x7686777f81829050925a94c69b139b22]);
  (1248245164465542700, [0x582f5c2788628a1f8b028bbc8c1392cc94e4]);
  (1249029482211645200, [0x4f7c6f1390e6914899e29a88]);
  (1249820000162356600, [0x6d9f6f23819c8af18bb3]);
  (1250616817127274200, [0x5986599d82ce82e78e528e6399219985]);
  (1251420034297000700, [0x7738915a]);
  (1252229755320262700, [0x58005b245b377292748074e276227b717c3f]);
  (1253046086384178700, [0x52285509554456396ece7c2a836590749be89cb8]);
  (1253869136297830300, [0x607d60f26f6d768e781d7e0880378426]);
  (1254699016579299800, [0x5b935dfe6dec90d391069432956f]);
  (1255535841546351400, [0x543e9038]);
  (1256379728410937900, [0x5471567c58f658fa5ff865a1672d8d058d58]);
  (1257230797377728800, [0x51627fd48e31914c]);
  (1258089171746868000, [0x6e5f8b968c36]);
  (1258954978021179400, [0x523d528a5abe639063fd652c66b96d046da46ecc73b792b99508]);
  (1259828346018054800, [0x4f5e62cc644864ef]);
  (1260709408986270400, [0x56e46fa1757f765e76697fb081c68244]);
  (1261598303727995000, [0x6cb16f3172de73708b338bb48e6693d6994b99889c3b9cd7]);
  (1262495170726271000, [0x52fa61c87080716c75d47812787c7b4f82de8aeb8c0f8e299645969b]);
  (1263400154278262700, [0x59c65a625f8763a367876bef7a57840d9d6c9e4f]);
  (1264313402634590000, [0x655b658269956e2572f875ae75e2762186ca8831]);
  (1265235068145082500, [0x4f1050885a1c618b630e]);
  (1266165307411313800, [0x5f29849c86d487d289b289d0991b9984]);
  (1267104281446297700, [0x5ed3673d71ce964b987498a7]);
  (1268052155841752000, [0x5a4068a26ef96fa781c3843c]);
  (1269009100943367000, [0x55e3591967da6f2f7f6987b38d0d8d618e819328951a]);
  (1269975292034540900, [0x556e56d36c5e81fc95cc9611]);
  (1270950909529077300, [0x5f6c632064936c306c9b6e7e70637ff196d2]);
  (1271936139173378400, [0x726f75b176b0871a8c7a8fe4]);
  (1272931172258695300, [0x61f563c96e0e700671b98a258bb79698]);
  (1273936205844045400, [0x54a7555c66a87a9c7ac487d18b3e8c29]);
  (1274951442990447200, [0x4ea955d462ed6ec17322755d86df]);
  (1275977093007166000, [0x5417542e558b55ce6fb9752d779179e486fe93a2942b94a8954c]);
  (1277013371710720700, [0x566c56eb71198a1b8ac48bb98c06]);
  (1278060501697450300, [0x5b7d6eb474e37dbe7eeb82b7]);
  (1279118712630504000, [0x55d6634e63827325836b852d868187fb9853989b]);
  (1280188241542178900, [0x55f76c697e7d7f248941]);
  (1281269333152600400, [0x550f55df5b6a5b7f6f7a]);
  (1282362240205819300, [0x600f64ae64ba651b71307e377f1598bc98d599b19a6e9d159e35]);
  (1283467223824477800, [0x667e67357785810d81be8dbe958f95f0]);
  (1285714509409683800, [0x58e45b5164827792779e7d157eb0904190dc]);
  (1286857378992046000, [0x5c905d025d9764bc83648386847787f9]);
  (1288013461232153600, [0x62336d3178277b0b7b4d7c3883018fb0]);
  (1289183065208472800, [0x517959ae6d9573d0743a7678817b81a983328925]);
  (1290366510973173000, [0x542754aa564e579258d85bf07d797ee2895f9c789c88]);
  (1291564130077844700, [0x553f5b5c5cfb5e1b6dc57e1b7f1a9068912f]);
  (1292776266131079000, [0x60fa6d2e8d94929194e39dc29e5e]);
  (1294003275390260500, [0x67ad689f772f778795a59600]);
  (1295245527390116200, [0x4edd4ef584d6869c983798949a439aa0]);
  (1296503405610802200, [0x50555bb55f6a6d856f41701b73b376937e6d8327988d9d6a9e4c]);
  (1297777308188545200, [0x626663b07f798ae18c2595de961a981c988c]);
  (1299067648672136000, [0x54ab6b597b3a7b8b7d5b7ee680de823782dc8a468bcb]);
  (1300374856828871200, [0x661966c76840728473607e828398877c87bb8af38c19]);
  (1301699379503873300, [0x5565699b7ba97c6e]);
  (1303041681537087400, [0x4eb357295a1369fd73d976f1781a786f7fce9f779f8c]);
  (1304402246742665200, [0x567b606b680b683268df7d027ea38052]);
  (1305781578955898900, [0x4e934f64504e561856536a0b6d93735076347f3d8d6d94b595ad95fe9911997d]);
  (1307180203153372800, [0x5c8c5d4a6a3595be96089f729f8b]);
  (1308598666652568500, [0x52ff53e85b719097]);
  (1310037540397778400, [0x636164bf6c8f71a8763878c5876e8a1d8bb6908b9bfd9cab]);
  (1311497420339893700, [0x4f5a75e876467ca585d58a6c8aa58bdf8bf08d178d5d90369052]);
  (1312978928918407800, [0x5f0b6cbd7dd27eea86b0944c95549562975b]);
  (1314482716654861800, [0x5d996c0676248247830e8396876093659532993e9943998d998f]);
  (1316009463867940700, [0x55e45ce55d22745575de7a3c7bd37c0d841886d0990999779c329ccc]);
  (1317559882521537200, [0x576f6c40788c7a9684d190b8]);
  (1319134718218351100, [0x53f56f5e780078ad7c7d86c08e1f902f909b]);
  (1320734752352995200, [0x6c246cad6cee6eaf6f78745978d079fd7a627d087ea8811081cd828b833886f087c48b928c178cd28d4a]);
  (1322360804440173300, [0x544b64e26ea783c586a99b23]);
  (1324013734635294300, [0x54bf5cac7bb487478805927894f0995e998b99df9a779d729e4a]);
  (1325694446466932400, [0x556a63b764f26b836b9a6bab6cef6cf59226949b]);
  (1327403889802862500, [0x4e984e9963f694109563]);
  (1329143064074049400, [0x4eeb54825769576a59555cb15d3d5f9c78377a4e7df17f11835084ba84c985a68b6b8c359896]);
  (1330913021783989500, [0x60416800689468b670c370f476e58392839e88e88dc692e593829503954196739bad9c91]);
  (1332714872334257300, [0x54a3562760d861756773714a753e81ca90f490fe921e94a797309df29e6b]);
  (1334549786201077000, [0x55b966f372cd80fa8cc18d32]);
  (1336418999502292200, [0x5b7a6d8e7a8886ed89219477954a9753975a]);
  (1338323818999361600, [0x520352195247560c59d86120614d68496f7470267b24893489649798]);
  (1340265627585071900, [0x5fe46413728d731e7f38837c838986c696bd96cb97a399559d079e28]);
  (1342245890314689800, [0x5028502951aa56715b735e42684e71e7725d75f07da68adc8c0d9ee0]);
  (1344266161046441800, [0x574a65ec6c686d9d6f877ce0832883b484358a038a158a3e8ba38baa935894e196c999a59c489cd5]);
  (1346328089766715200, [0x59af655d686869f36d9b6fe4741a7cc58012853d8c628e69]);
  (1348433430686498500, [0x4ef68d208f618f94993f998a]);
  (1350584051208595000, [0x548e566460eb618a65d6753a837b90b392ae938f947e9be19cb1]);
  (1352781941880472300, [0x552c6004616a62e363c06e116fa080eb811b82cb83a7877e88118e599ee7]);
  (1355029227465678300, [0x56bc58c55924835a83a288f1920d949d95ac96069a6a9a8a9d539e41]);
  (1357328179288148100, [0x56016215695e73f2743f746977cd833483b98ae68c1b]);
  (1359681229029167500, [0x4f095a1f6cc56fb675fc7620765681488f468f9890eb99a89f5f9f83]);
  (1362090984187073600, [0x54325f115f1264c06d5a75e4892b92ef95069acb9ad6]);
  (1364560245446110700, [0x515068676a9c6b926b9e74ef750c7762916a9b039dfa9e6d]);
  (1367092026244539800, [0x5b17693d70b375c876707691769a83358a708bd89095911e9e159e2c]);
  (1369689574884865700, [0x54d0624965ee663566b169126c4a6d9e6df67cd982ab832d93a994e9]);
  (1372356399593081900, [0x63e9693f6b436cd47405746f77c77d737e1e7e557edb7f1f7f2e7fe680fc852b868087559f5c9f87]);
  (1375096297011893400, [0x4e5c7aa07dd97f02836885418a918ae28be88bf38c478d998fe2918d9320952d9edf]);
  (1377913384708563000, [0x57ad57e15e9667fd6a896ecf70e971f4757977f88549914993b3954d9873989e]);
  (1380812138395888200, [0x5811587959ab5aaf660a76547b507b9c7bfe80c0813983df8db59099925194c2960b982198899ad39b29]);
  (1383797434710856300, [0x5e615f6460436078609a615f61be693472ce72fb78177825786883318b2b8c2a8dd78df78e7a926c92c794a194bc980e; 0x98809aed]);
  (1386874600577531800, [0x4ff3501c59e35a085b4c5b6c5d6f679e698a6a056c376fe1709671c972d273ba74bd78ca8b598c2f8cb38d3091469761; 0x9c549cdd9cf69e229f4f9f51]);
  (1390049470408989800, [0x50ee531d53795cbf5dcb606461cb68b06cf16e1d723b75a57aff836085ba96219d5c9e48]);
  (1393328452691288900, [0x545356c859cd59d7626a636b64b56506680969796adb6f89701a76b276b879c87c7c83a887098821]);
  (1396718607858857000, [0x53525f0862e764f0662767156c0d6c266cab6d5c6f6278a379eb7bf77fb8819b831c83d6858f86f2879f87ef8e6c9699]);
  (1400227739839984000, [0x52d054205c9a5d5062a063b8647364a371457b948019837885438832940394d996f999d29a799d069e299f2c]);
  (1403864504257071400, [0x54d455f6597c59f9686b69ab729f7a377ccc834f8e4893dc946b95579b329ebc]);
  (1407638537055356100, [0x4faa511554015a095cab5cea615161fe6c196d636ec276b478307c72817184c78acd8be48dbf8e498ef28f7190049176; 0x9e82]);
  (1411560608370684400, [0x4f6550c9510b554155915bc56dc77ce880b4905190b490ef9169962a991a9c139cc3]);
  (1415642807822709800, [0x58f95b346c866dae763e766e7c2784298a868bd390cf90df92a893ca94f59be79cb39df89e6c9ea99eb8]);
  (1419898769264589300, [0x54cc55b35fd668e069f26d546f6f738e7487779f7b387cbc84d385ff87238b018c12902192c5950c95bc960f]);
  (1424343945521672900, [0x50d65443591467d869946da96e856f806ffa75f975fa7600762a765f7fbf82a1839c89e59704]);
  (1428995947085162000, [0x50255048520d587e5dfd60ad6173661d768b79627b0a816082bb8431874887c888e3895d92f0950298e899579ce99e20]);
  (1433874963502105300, [0x55f3566f62ce6bc2763076f97dac7e937ef67f287fb680f481bb832c866287af886b8aa88bf28db88e2f8e3d8e478e89; 0x8e918f42905b9104916e919b92bc92c39509951297169d2f9e389f349f39]);
  (1439004292940860300, [0x5261534554c255e555f256f960d166646d91728a72a2748e74d475f17b8d800483ba841c8e1d920494ad9830988a9bea; 0x9c319c399ca29ca39cae9daf9ec3]);
  (1444411015067888000, [0x57a35c985cf45def5df067b3680e68f5690b6adf6ddd7e7e7f317f54]);
  (1450126856451882800, [0x60b8679a75b37618763a76437741775c7b397b5a7bf37cb286de8e7c9b819c85]);
  (1456189318633526300, [0x4ff550a9513a51b45241559f5b405f655f6662c4631b652370947172777979c67a087b207d3a7ec0826883068c5a8e6d; 0x8fbb9319953195d49616972d97449b4d9b519c259ccf9e9f]);
  (1462643170747283400, [0x536f571c57685a755b0b607961e86ca3704374e4782d7a177db87e0a7eb67f22800580bd890a91ec946d948e95679862; 0x989f9aef9e1e9e3e9f2f]);
  (1469542457895978600, [0x4ee84f88538d5399600361ae622e6339634563ae64b764f768616a486de06f3e749e7538775a8297858c867c907d916f; 0x929394e8970f99d19a7d9acc9ad5]);
  (1476953255111350700, [0x5a25625b63966bfd6ca46cf76ebd6f1a6fc97027742a75b575d87720799a80b1823683c184cd86b1870387a887ce90c7; 0x964299939c529cdf9eff9f0b]);
  (1484957525878704300, [0x4ec44ec9531954595543638e668c681d69a771e072b0736c7525759d7b607be67e887f2c80ef8132819882eb86f48810; 0x8aa18beb91aa926d94bd9a4a9a859bdb9cb79e1b9e73]);
  (1493658663577667400, [0x4ea5519551a253a9545656a6585a5a775c4e6019622169bb6a816aa96bb36da76f97755b77ec7c307faf86f186fa87ab; 0x87ca883990c4915e984e989a9c499cd69dd79e259f619f84]);
  (1503189681558099800, [0x4fce50a7511051fc56585b5a609262e2634b63d6650f688369c16a5b6c396c506e0d6f2a6f2c705e759675b976647765; 0x782c78477fb980f1859c85c1868d88138c948d9f90f8913293ac95509ee99ef79f22]);
  (1513725733123882500, [0x4f224f575016545754bb54e75504556655c955dd56df5a675c495c5c6059607a613762f463e0647a649665c3686968fb; 0x6a016a906c166d526dfc6ef86f4b703272f473e9742c754b756675e675ff76c2775177bc77e37baa7c1e7c377c867e10; 0x7ec97f5f7fd58233829f833c83e184ca85c9863c89f18a108ba68e418e748f1b8f869088909190c9922192bb951195a2; 0x96ef980b9ad99be49cb29ecd]);
  (1525504036689520900, [0x4f2c4fc14fe3502e518651a852ac53ed544054b255e8577759eb5e275e405fb36589658e67ca685d6862687669686a38; 0x6abe6c296c2c6dc66e867460752f75517560758b77f6783b78b478ef79317cb17d9a7f457f85816d823e82a882d88393; 0x856485ac85ae85ea864f865c87bd886e889e8c898e7f8ea592a59397943394f1956d957795c3961296b099ac9ab6]);
  (1538857175951973100, [0x4f5151eb53c1549d565d57e0580758925a115c155c255ea0631e636d643d64bb6864695d6966697869bf72b773777396; 0x75a375c47663766c78f47f44812f82fb847385a486cf87f689bd89c88e409210932e94a495229ad19ce7]);
  (1554272243934698800, [0x4f7454d25501565c5660569557a15e0f5e435f8c6206620764d8677567a56aea6ca96e886fe0711671dc74e075b07b47; 0x7b9d8210821482c182d583c784ef873e87708dd68e358e6091f993f5949594e79bc19ca09d879e2b]);
  (1572504399614094300, [0x4f764f894fd1545b55c656ff5e5460356485652e69896a3d6af86db86fef752b75747587760a76c57b067b957e327f27; 0x831a8559857985b0869d881488c6896089f38dba8e3a90c5914a923794b49ac09bab9c9b9d899e51]);
  (1594818754745515400, [0x4edf4f1b50b45106536654e95624568f56b656d4575e57d458625a555ca2634c641067d26c706e987426772d78b278d9; 0x78fb79e37a147f618035807180ea81da821b830c83b383fd84768494857e85d38605861a86ac86b687068764877288b7; 0x8b958c308dc48dec8e4c91f5923a949794b09701973d9a0d9a0f9a909a929edc9f599f85]);
  (1623586961990693600, [0x4f704fa34fb655ec57c2598d5b955be45df360b160dd610661ac620c63ce649964b864fc678b6ce06eb76f726f8870bb; 0x7178741b755a775b77fe78567864792c79d57aa87db47f0080db81cc83aa83dd85e087938d678f258f8a91e992e6933e; 0x937693e8949295149536968d972a9ac29bd69c3e9cad9cd49dd99e379efd9efe]);
  (1664133472801510000, [0x4f255000557e55e6569356e1589f59d25cc45d2e5da75f7362bb659b6756684468e36a176a2f6aa36c5c6d6f72307317; 0x737e73c2749c74a774a9751175eb760c76477b727dc47ef27f367f9d7fb2802a80ec82348258826e829082a482c484fc; 0x850a857a86188707871287ea8a368bc38c498cfb8d598d918dcf8e148e2e9026909090e491d792119296931b948a94a3; 0x94e2951b965f991699339967997e99ad9a6d9cd99d1d9de69e329e6a]);
  (1733448190857504300, [0x4e484e4e4e534fd04fdf510c51ae51bd5208520e525c53a5541654b454d355f5562d56355662566b568657a257e4586c; 0x5bbc5ca35cd25ce45d245d265d825da05e7a5f3c61b7621f622262bf63f366156656668966fd674c677c67c468606901; 0x690f69e86a916b466b876ba46bd36c186cd36cfa6d276dd66e1a6ffc714c715c71667228736f73c9745a75e776cf76de; 0x781f7823783a783c78407852790e792a7940796f798e7a1e7a807b2e7bac7bd97d067d137ea17ebe801880e4818881ba; 0x81fb8200828a82b482cc82d382e382e48317834384048407840b846d857b85878616861786f9883c887d88d48a1a8a7f; 0x8aee8b178bd68c188c248c688ce18d538d738deb8e4b8efb8f728fee9046908390be91239143923f92a3937e94bf94f7; 0x953a95a4960796ce985298999936993a9989998e9b319b929c8b9da99def9e5c9e699efc9f37])
].

(** prob_emit.go:6868-14308 loadDefEmit, state E *)
Definition emit_E : list (Z * list Z) := [
  (450500612889026800, [0x56fd570b]);
  (460184809489282100, [0x4e2a500b]);
  (471184596827067200, [0x4eba]);
  (478880265797831600, [0x5b50]);
  (481031923442170700, [0x4f1a6703]);
  (481652250189627200, [0x4eec5011]);
  (491677974452871250, [0x4f866765]);
  (501148882153809350, [0x6709]);
  (503904399197228000, [0x662f]);
  (503927721959206000, [0x4e3a70ba]);
  (509272846183948800, [0x5bb6]);
  (511901849465817600, [0x4e1a696d]);
  (520185130313442300, [0x4e8e]);
  (522188512623704300, [0x884c]);
  (524809410599085000, [0x751f]);
  (525737964434183000, [0x5e74]);
  (526824620823267000, [0x8981]);
  (529899594362047600, [0x9053]);
  (531649942630169200, [0x5230]);
  (532313543999758500, [0x4e0a]);
  (533157250677054700, [0x5b9a]);
  (536034132039215900, [0x533a5340]);
  (538797694160657500, [0x7136]);
  (539446031537035600, [0x9ebc]);
  (541483878692989200, [0x79cd7a2e]);
  (542842710925777200, [0x5b665b78]);
  (544632376457381500, [0x5e02]);
  (545709390187457800, [0x9577957f]);
  (546772152873350950, [0x5927]);
  (546966090283940900, [0x529b]);
  (547576349438328000, [0x65f66642]);
  (547693889882936600, [0x4e2d]);
  (548647088225923200, [0x7528]);
  (548672841509609200, [0x52a852d5]);
  (548846133162654000, [0x6210]);
  (550117729456632700, [0x90e8]);
  (550442722563030600, [0x9762]);
  (550863069091613800, [0x88e191cc]);
  (552398839880647400, [0x540e]);
  (555603562782988600, [0x958095e8]);
  (555687947089447300, [0x51fa]);
  (559231949480205400, [0x8005]);
  (559485921409130800, [0x5ea6]);
  (559565669409688800, [0x4ee5]);
  (559675027520470500, [0x4e9b]);
  (561202511971046700, [0x5730]);
  (561622661876194100, [0x4f5c]);
  (564141225555866800, [0x959395f4]);
  (564703187111308500, [0x6c11]);
  (565650821548131800, [0x4f539ad4]);
  (569937420973718640, [0x7406]);
  (570241433191080100, [0x65b9]);
  (570522334749180400, [0x5316]);
  (570953218011472700, [0x6cd5]);
  (571599894734894100, [0x68376a23]);
  (573964471440989900, [0x4e0b]);
  (574005940936163200, [0x9662]);
  (575666798370295700, [0x8fc7904e]);
  (575963384100061300, [0x80fd]);
  (578686520381488500, [0x573a5834]);
  (578882791298273300, [0x519b]);
  (579539174433420800, [0x91cf]);
  (581650920238330200, [0x5206]);
  (582557450521340000, [0x5f97]);
  (582978016590479000, [0x7d1a7ea7]);
  (583899766122475850, [0x672c]);
  (587857133833235950, [0x5728]);
  (587880427320694000, [0x6b21]);
  (588010759155470400, [0x73b073fe]);
  (589081006336935900, [0x4f4d]);
  (589646319623719900, [0x5929]);
  (590003703867846400, [0x6027]);
  (590382997104082300, [0x5df1]);
  (590597119474717900, [0x5934982d]);
  (590878238906715900, [0x5fc3]);
  (592100115883333700, [0x53e3]);
  (592862953599650400, [0x545854e1]);
  (595242851820916900, [0x7269]);
  (596245202830969300, [0x4ee3]);
  (597894736735702550, [0x5c55]);
  (598484037152163200, [0x524d]);
  (599153844680479250, [0x70b99ede]);
  (599532666748901200, [0x5165]);
  (602537542304960500, [0x4e8b]);
  (603209230687994200, [0x671f]);
  (603823344817315000, [0x54c1]);
  (604498753625507300, [0x4e00]);
  (605791188889125550, [0x4e49]);
  (606283850762227950, [0x660e]);
  (608976273955593950, [0x7acb]);
  (609036442429130000, [0x5236]);
  (611467996056601700, [0x4ea77522]);
  (611508222397351700, [0x5916]);
  (611641084247302600, [0x540d]);
  (611778157092061700, [0x7d937ecf]);
  (613687010989115600, [0x517395dc]);
  (613704831536253500, [0x672f8853]);
  (613975270787078500, [0x5e9c]);
  (614572271022903600, [0x984c9898]);
  (615515680800160100, [0x679c]);
  (618218203824028740, [0x673a6a5f]);
  (618324392936709200, [0x5c71]);
  (618981247593070800, [0x53f8]);
  (618992809957587300, [0x8def]);
  (619066551475232500, [0x53bb]);
  (619089697279435600, [0x52a152d9]);
  (621041520354957700, [0x540c]);
  (621453977421092400, [0x65cf]);
  (622782687589947150, [0x5317]);
  (623026179563793200, [0x8b708bae]);
  (624082133219950400, [0x898b89c1]);
  (624299850623612100, [0x5f0f]);
  (625975137633589900, [0x961f968a]);
  (626806232016250600, [0x8d77]);
  (627745206051234500, [0x4ef6]);
  (628065969838226300, [0x624b]);
  (629460470303677600, [0x6b64]);
  (629899564835317300, [0x8272]);
  (629939871488879100, [0x7cfb]);
  (631101204163461400, [0x8aaa8bf4]);
  (631547578730444700, [0x7a0b]);
  (631946584210425900, [0x5408]);
  (632385188636743100, [0x591a]);
  (633273212863510200, [0x65e5]);
  (633627296042064100, [0x610f]);
  (634595712628725400, [0x513f5152]);
  (634597402089027350, [0x6d4e6fdf]);
  (635282289827559200, [0x5dde]);
  (636043866515333200, [0x7740]);
  (636122745748464300, [0x5e38]);
  (636437165491192050, [0x58f08072]);
  (636447491091806900, [0x65706578]);
  (637029164044402700, [0x5143]);
  (637889732111227500, [0x5e73]);
  (637999792131246900, [0x52a0]);
  (638868790358190100, [0x8868]);
  (639048798877783850, [0x7701]);
  (641175000275437900, [0x60c5]);
  (641232755754789400, [0x7684]);
  (641379098566298000, [0x547d]);
  (642788393221220000, [0x5f00958b]);
  (643222081902885900, [0x5225522b]);
  (643321580731849300, [0x754c]);
  (644885970542950100, [0x5229]);
  (646732397811798600, [0x6cbb]);
  (648889943448322800, [0x67436b0a]);
  (649307912806809800, [0x50995907]);
  (650208359280865900, [0x4e3b]);
  (650374390192842500, [0x8ad68bba]);
  (650645771531091000, [0x53d1767c]);
  (650894026427565600, [0x5bfc5c0e]);
  (651051241954629200, [0x5b9e5be6]);
  (651260582608261450, [0x8eab]);
  (652560280503376160, [0x5019]);
  (653189047558758150, [0x6b65]);
  (653701058468730200, [0x6d77]);
  (653848415283016400, [0x8fdb9032]);
  (653877093229871950, [0x4eac]);
  (653985734304830050, [0x597d]);
  (654275336561151700, [0x8a718bdd]);
  (655450530604769700, [0x6c5f]);
  (655485917414185500, [0x53ca]);
  (656045441192176900, [0x5357]);
  (656255023362198000, [0x653f]);
  (656423005931516200, [0x6c146c23]);
  (656827319150751900, [0x57ce]);
  (657178204120453900, [0x5e03]);
  (657188792069260400, [0x7d717edf]);
  (658966426743150400, [0x4e1c6771]);
  (659044061475651600, [0x7dda7ebf]);
  (660233337412573500, [0x60f3]);
  (660497850240454600, [0x6587]);
  (660666541608190300, [0x8cea8d28]);
  (661189757715619400, [0x897f]);
  (661609425248547600, [0x53f2]);
  (662001969636576800, [0x80b2]);
  (662297949645911500, [0x6c34]);
  (662588102514415200, [0x9633967d]);
  (663209173781310700, [0x58eb]);
  (663429829985041100, [0x51b56cc1]);
  (663432084090330500, [0x5668]);
  (663472666676449100, [0x4efb]);
  (663874872569340800, [0x6301]);
  (664403812180091300, [0x6c42]);
  (665359794303407100, [0x5de5]);
  (665624414727734400, [0x7c73]);
  (665767370712421500, [0x51675185]);
  (665873567047085700, [0x4e86]);
  (666243826419934800, [0x9645969b]);
  (666283247167352500, [0x59cb]);
  (667828193814158000, [0x7c7b985e]);
  (667950751514101100, [0x6599]);
  (668537332821826800, [0x62186230]);
  (668575295192083600, [0x901a]);
  (669101130064193850, [0x91cd]);
  (669380636690338100, [0x4f55]);
  (669994945247596200, [0x4e89722d]);
  (670908966505977500, [0x5c11]);
  (672675887849355000, [0x8fb9908a]);
  (673330749543693850, [0x578b]);
  (673427855060194500, [0x5e085e2b]);
  (673497630038728700, [0x9996]);
  (673914802121201900, [0x7a76]);
  (675242796035650400, [0x59048655]);
  (675685162140666850, [0x9ad8]);
  (676344707452925500, [0x6d3b]);
  (676658106805207000, [0x6c496f22]);
  (676696707405282300, [0x606f]);
  (677391486464084700, [0x5175]);
  (677684791282870300, [0x636e64da]);
  (677773210917788600, [0x8a088ba1]);
  (678504361030994500, [0x793a]);
  (678617119830916000, [0x6e90]);
  (678803581706225800, [0x6821]);
  (679727875924839700, [0x5bf95c0d]);
  (680206574780562200, [0x6797]);
  (680291917222268500, [0x7e547ec7]);
  (680719725361376300, [0x5f8b]);
  (681959967735122950, [0x683c]);
  (681997956501758900, [0x534e83ef]);
  (682046820416730700, [0x53bf7e23]);
  (682878443047110650, [0x5e9461c9]);
  (683460590392348000, [0x52125283]);
  (683810959741736500, [0x503c]);
  (684462536222441700, [0x678469cb]);
  (684565512811327500, [0x79d1]);
  (685121186143398900, [0x6761689d77e5]);
  (685516781805551300, [0x79f07a31]);
  (685708126340266850, [0x5149]);
  (686641945627873400, [0x6cb3]);
  (686661848671683200, [0x8a2d8bbe]);
  (686744346365004400, [0x4e6666f8]);
  (687610400111082400, [0x53d6]);
  (688088071369239700, [0x5efa]);
  (688527467329560400, [0x822c]);
  (688652121286070700, [0x56e25718]);
  (688797263405660850, [0x52bf52e2]);
  (689131891916887000, [0x76ee]);
  (689207702510674100, [0x8eca8f66]);
  (689333207831936500, [0x5168]);
  (689742924530343500, [0x5411]);
  (690021905696530400, [0x5e1d]);
  (690033669364455700, [0x65af]);
  (691333215501393600, [0x6d41]);
  (691371957287874600, [0x57df]);
  (692092902121933400, [0x5b89]);
  (692210059712275200, [0x6d32]);
  (692267186249104300, [0x4e14]);
  (692348422244124400, [0x515a9ee8]);
  (693535343859812800, [0x82b1]);
  (695042177544394600, [0x5f537576]);
  (695544364036406400, [0x7e8c7eed]);
  (696559506048771500, [0x7247]);
  (697578715603593750, [0x8c61]);
  (697658036619888800, [0x54cd97ff]);
  (697832764644645700, [0x9020]);
  (697912287511659550, [0x79ef7a4d]);
  (698393954817158850, [0x65ad65b7]);
  (699943923817101100, [0x65b0]);
  (700060901897052800, [0x671b]);
  (700285493089187900, [0x7d007eaa]);
  (700543254623162900, [0x4f17773e]);
  (701689992123269700, [0x77f3]);
  (702153722666121400, [0x89e3]);
  (702260020842487200, [0x8fbe9054]);
  (702766486006117300, [0x7ba1]);
  (702957073709047100, [0x583162a5]);
  (703050828947791600, [0x5e2d]);
  (703393111161159100, [0x800c]);
  (703588266001024300, [0x5883]);
  (703692729288312100, [0x8cc78d44]);
  (703719705279843300, [0x8a00]);
  (704142153059961300, [0x901f]);
  (704413459225632100, [0x5f375f3a]);
  (705595409174472900, [0x6708]);
  (705991367479258200, [0x6bb5]);
  (706122551258902600, [0x738b]);
  (707412443111021200, [0x544a]);
  (708213487340987200, [0x5c40]);
  (708549158910343400, [0x8b588bc6]);
  (708772385152386900, [0x7387]);
  (709334424195922900, [0x6848]);
  (709620210122579700, [0x76f4]);
  (709853014081524150, [0x91d1]);
  (710280633900540100, [0x6b63]);
  (710630555795803900, [0x539f]);
  (710713706864386200, [0x4fe1]);
  (710956324354076050, [0x6559]);
  (711479771568893300, [0x51c66e96]);
  (711545395545873800, [0x4f4f]);
  (712339936825525700, [0x4e9a4e9e]);
  (712627081773228350, [0x53d88b8a]);
  (712645516652071200, [0x6001614b]);
  (713048243914903400, [0x4f7f]);
  (713211273333353500, [0x65bd]);
  (713448882503990140, [0x5bb9]);
  (713746690117161600, [0x5fd7]);
  (714075306119221200, [0x9a579a8c]);
  (714157629129408500, [0x624d]);
  (714165116401050250, [0x5176]);
  (714311230358446900, [0x592b]);
  (714720735955601950, [0x51fb64ca]);
  (714724500661484800, [0x5207]);
  (714762155517523300, [0x5c14723e]);
  (714777221430922800, [0x7d20]);
  (714871434850112900, [0x8a9e8bed]);
  (715434795320740000, [0x514b]);
  (715453755182769000, [0x529f]);
  (715484098441109050, [0x62a48b77]);
  (716108172919871200, [0x6e38904a]);
  (716356601261440300, [0x4ed6]);
  (716605648306772800, [0x9769]);
  (716613321137283800, [0x53d7]);
  (716828399762269200, [0x5fb7]);
  (717314024704931100, [0x99ac9a6c]);
  (717352667568075200, [0x6613]);
  (717379726459985450, [0x62ec]);
  (717642966004996200, [0x4e3e8209]);
  (717996330123781500, [0x8fd1]);
  (718081946567367500, [0x6e56]);
  (718401709747330800, [0x53f0]);
  (718793053728957500, [0x8cfd8d5b]);
  (719627802837209000, [0x63a5]);
  (720561330978451400, [0x81f3]);
  (720701115732726200, [0x5f205f35]);
  (721001314088938900, [0x7403]);
  (721798195192416400, [0x4ee4]);
  (721895219779588000, [0x5e95]);
  (722028782482838950, [0x51b36c7a]);
  (722069291273800400, [0x7b97]);
  (722109816481033600, [0x7b49]);
  (722699285025307250, [0x76ca]);
  (722931961934035900, [0x8f2f8f91]);
  (723657955155757800, [0x653e]);
  (724422437483906500, [0x523b]);
  (725636900587943150, [0x9808987b]);
  (725876522352625600, [0x5e265e36]);
  (725889149943929300, [0x5c425c64]);
  (726463281882369000, [0x4e4e]);
  (726509863432683000, [0x7f6e]);
  (726581895807993100, [0x5982]);
  (726628532656187600, [0x67e5]);
  (726823795473980100, [0x592e]);
  (727283742624425860, [0x8a728be5]);
  (728240195198908900, [0x767d]);
  (728244504893567700, [0x4e506a02]);
  (728490465016702100, [0x98a898ce]);
  (728680743572641800, [0x5b57]);
  (728962501057639050, [0x4e607fd2]);
  (729045011104660700, [0x5f62]);
  (729275531181515000, [0x8cbb8d39]);
  (729528408888646900, [0x7ae0]);
  (729812568296449200, [0x7b56]);
  (729926458536102100, [0x7bc08282]);
  (730137058824541000, [0x52195247]);
  (730400934428442650, [0x98189886]);
  (730700837625792500, [0x62366237]);
  (730798058014377200, [0x899689c6]);
  (730877672331466700, [0x56f4570d]);
  (731601524771526600, [0x81ea]);
  (731650562955421800, [0x6b62]);
  (732016880095003100, [0x5148]);
  (732375560536931700, [0x68656a4b]);
  (732676948498138300, [0x6240]);
  (733427607716247900, [0x661f]);
  (734133648410838000, [0x9f8d9f99]);
  (734289190781737040, [0x7167]);
  (735093626386833700, [0x56ed5712]);
  (735158261661475400, [0x5f80]);
  (735232181738761400, [0x7a7a]);
  (735315407192058000, [0x7d047ea6]);
  (735974403451074900, [0x4eb289aa]);
  (736455139949020100, [0x81f4]);
  (736694032724881000, [0x8b498bc1]);
  (736750325825771800, [0x5b98]);
  (736797260962275900, [0x5c0f]);
  (737348044983830950, [0x96c6]);
  (737745358911088600, [0x5973]);
  (738506542415051600, [0x52a9]);
  (738530423012180000, [0x697c6a13]);
  (738635565442053550, [0x795e]);
  (738678610137459600, [0x5bcc]);
  (738903700627840900, [0x590d]);
  (738932472086752300, [0x5217]);
  (739533767883088100, [0x770b]);
  (741349830842216500, [0x89c089c2]);
  (741847307548524400, [0x671d]);
  (741867060635008400, [0x5f395f48]);
  (742302618638973800, [0x7b11]);
  (742610632196614000, [0x5bb3]);
  (744074170749379600, [0x4efd]);
  (744129724903481300, [0x7f8e]);
  (744352250661618600, [0x53f7865f]);
  (744676811015495700, [0x8a188bb0]);
  (744885287434022900, [0x5f1f]);
  (745012620835494200, [0x97f3]);
  (745073798507552700, [0x591f5920]);
  (745257556407252000, [0x5feb]);
  (745744100605389900, [0x6e05]);
  (745785181020879850, [0x7565]);
  (745877673705136800, [0x5bdf]);
  (745975397771034000, [0x89ba89c9]);
  (746212389123583600, [0x98059879]);
  (746382751313415600, [0x793e]);
  (746589640804818100, [0x6751]);
  (747499849153697050, [0x8a668bd5]);
  (747724774055637800, [0x5c5e5c6c]);
  (747766676423734600, [0x5ff5]);
  (748102528964448100, [0x68076a19]);
  (748139331362276750, [0x5b9d]);
  (748218239280834900, [0x75c5]);
  (748307743590914100, [0x90fd]);
  (748365700862222200, [0x54e5]);
  (748386784564598350, [0x7840790e]);
  (748392056184832100, [0x8cac8d23]);
  (748618999150686550, [0x773c]);
  (748724729758971400, [0x5ba4]);
  (749005457716846000, [0x5cf0]);
  (749430696225068200, [0x51707279862d]);
  (749601299241336400, [0x4e0d]);
  (749734785658893700, [0x96be96e3]);
  (750125588907958200, [0x8db3]);
  (750383390221587400, [0x8ff0]);
  (750992934412705800, [0x53cb]);
  (751193329854426750, [0x4ef750f9]);
  (751236711450465300, [0x5747]);
  (751448466653794100, [0x8fdc9060]);
  (751622550040157660, [0x786e78ba]);
  (751633440320593100, [0x9b5a9c7c]);
  (751720605285798100, [0x4eca]);
  (752070026912340900, [0x8abf8c03]);
  (752261634558622800, [0x53ef]);
  (752464591212037100, [0x5802]);
  (753774472598579600, [0x71df8425]);
  (754069762113087900, [0x56fe5716]);
  (754170247802333700, [0x6280]);
  (754349138726606200, [0x59d4]);
  (754416305414455400, [0x571f]);
  (754449905683573600, [0x88c588dd]);
  (754545167801674000, [0x7b517bc9]);
  (755231489127547100, [0x6d3e]);
  (755395326343936400, [0x56e0]);
  (755752176251067450, [0x4f8b]);
  (755962349863609600, [0x601d]);
  (756355479162339700, [0x56de]);
  (757221235795445300, [0x554f95ee]);
  (758141035182188600, [0x670d]);
  (758309713424887400, [0x517b990a]);
  (758788211157606000, [0x4f9b]);
  (758957985515628700, [0x4eae]);
  (758999008752937300, [0x90a6]);
  (759793481079456800, [0x548c]);
  (759805298616695800, [0x5a18]);
  (759935383781681600, [0x5ea7]);
  (759988649252120900, [0x53e5]);
  (760160475690485900, [0x8a318bb8]);
  (760725432145427500, [0x514d]);
  (760970244926303500, [0x984d989d]);
  (761053976988611900, [0x8f038f83]);
  (762106586629293100, [0x6d0b]);
  (762300267842241500, [0x5c9b5cf6660c]);
  (762482185301907200, [0x4e8c]);
  (762767856366870700, [0x6a21]);
  (762804383823748300, [0x5f81]);
  (762938432101193500, [0x8a348bc9]);
  (763097084807159100, [0x805e95fb]);
  (763427400742434800, [0x4ec550c5]);
  (763433528005694600, [0x6548]);
  (763912614973268800, [0x5757584a]);
  (764085156302739100, [0x5ba2]);
  (764747266948436400, [0x51748208]);
  (764828009786896600, [0x836f85e5]);
  (765070630205143000, [0x7389]);
  (765207753138620600, [0x8fd0904b]);
  (765282626792832900, [0x4e16]);
  (765507584708110200, [0x5473]);
  (765513840768670900, [0x70c8]);
  (765532611298993500, [0x4e07842c]);
  (765808317971541000, [0x6574]);
  (766412511388619300, [0x6562]);
  (766652683416594000, [0x6bcd]);
  (766766650758295100, [0x7531]);
  (766791994482691100, [0x82f1]);
  (766836361461710800, [0x6015]);
  (766956885438366900, [0x6b7b]);
  (767122048733440100, [0x5584]);
  (767255649287714400, [0x843d]);
  (767638351630044550, [0x7ad9]);
  (768311625309214550, [0x516c]);
  (769743692549827800, [0x7237723a]);
  (770083651036236550, [0x7d507ed3]);
  (770168821546184200, [0x5c065c07]);
  (770195042457511000, [0x6bd4]);
  (770536541443102400, [0x4e3d9e97]);
  (770899015890127600, [0x5546]);
  (771143603683520200, [0x695a]);
  (771302575698188250, [0x5c04]);
  (771534863839802200, [0x99289986]);
  (771574738898481700, [0x5b58]);
  (771694459564593800, [0x966996aa]);
  (772054483955072400, [0x677f]);
  (772067843116137000, [0x67816975]);
  (772154721191571700, [0x50cf]);
  (772529830479958300, [0x65578d25]);
  (772940039185367200, [0x5bab5bae]);
  (772980478627854100, [0x7fa4975e]);
  (773331640523021150, [0x9664]);
  (773507684985847700, [0x537353866b77]);
  (774460981051720100, [0x7d057ea2]);
  (774673302627322200, [0x7df47ec3]);
  (775057997750370500, [0x4fbf]);
  (775278489812414700, [0x98df]);
  (775402730579362200, [0x666f]);
  (775485643594545300, [0x76f8]);
  (775880421958147600, [0x632563ee]);
  (776033210375952900, [0x529e8fa6]);
  (776130561054665600, [0x8d8a]);
  (776388302132877600, [0x6e7e7063]);
  (776409229202117950, [0x5178]);
  (776793670314474800, [0x804c8077]);
  (777482358911369800, [0x5177]);
  (777927605061962600, [0x8054806f]);
  (778453137128672100, [0x826f]);
  (778467379099785000, [0x4e45]);
  (778967130264832100, [0x6ce2]);
  (779010082516906350, [0x79bb96e2]);
  (779017243019576600, [0x611f]);
  (779232296865899500, [0x7968]);
  (779383110209145700, [0x753596fb]);
  (779555747282665500, [0x4f2050b3]);
  (779671004462979700, [0x53ea]);
  (779707049591870850, [0x7d667ed9]);
  (780387127455392900, [0x7236]);
  (780423431685234400, [0x623f]);
  (780612426435100700, [0x5f71]);
  (780663370724983900, [0x96469678]);
  (780860113601868400, [0x898f89c4]);
  (781144982864305200, [0x4e619109]);
  (781636276244795800, [0x90099078]);
  (781680390648863900, [0x5f85]);
  (781709811066846000, [0x5e725e79]);
  (781849676377290800, [0x6750]);
  (781952860348709860, [0x771f]);
  (782019249168320800, [0x81e3]);
  (782248259721628600, [0x5e015e63]);
  (782923561905776000, [0x5bc6]);
  (783244254278914600, [0x93ae9547]);
  (783640946539703900, [0x67b6]);
  (784016632607840700, [0x5ead]);
  (784348407908404400, [0x5cb8]);
  (784832963671756700, [0x65979b25]);
  (785297001627407000, [0x5e8f8003]);
  (786000960460734100, [0x6536]);
  (786047043410858300, [0x706b]);
  (786246981957931100, [0x5740]);
  (786316284698163000, [0x6e2f]);
  (786740848229109600, [0x9675]);
  (786764058163065500, [0x6790]);
  (787276044387341200, [0x92b79500]);
  (787423921598396000, [0x535555ae]);
  (787618830637607700, [0x4e91]);
  (787892343096634000, [0x53e4]);
  (788001957889946000, [0x6b3e]);
  (788080327799913200, [0x724c]);
  (788284377470460900, [0x7d427ec8]);
  (788386558654435000, [0x5426]);
  (788480972508812700, [0x80a1]);
  (789342671978833300, [0x5931]);
  (789660763698335800, [0x4ece5f9e]);
  (789692628591459700, [0x9759975c]);
  (789899998262197800, [0x75977642]);
  (789987861201673500, [0x52dd80dc]);
  (791096751632214200, [0x5df2]);
  (791436695302360600, [0x69ae8363]);
  (791550267148753300, [0x7763]);
  (792136397123752400, [0x6e106f38]);
  (792340720679778100, [0x4fa75074]);
  (792447134147029300, [0x96359663]);
  (792742409952117400, [0x53f3]);
  (792865699327862600, [0x7aef]);
  (792906829587974300, [0x4f2450b7]);
  (792964440387477300, [0x591c]);
  (792997375752122500, [0x5ef7]);
  (793013847503106800, [0x5347]);
  (793137472194336800, [0x5b815be7]);
  (793393448553091700, [0x89d2]);
  (793476161543746000, [0x4ea4]);
  (793575507524265700, [0x52675287]);
  (793616930829609200, [0x675f]);
  (794007150927079000, [0x6279]);
  (794123681654432540, [0x62e964c7]);
  (794666503146810600, [0x827a85dd]);
  (794691627722965600, [0x6ee16eff]);
  (794758657469924300, [0x4e4b]);
  (795027226661989100, [0x5eb7]);
  (795086072445705600, [0x616e8651]);
  (795153367199254600, [0x4e714e82]);
  (795203867999923800, [0x536b885b]);
  (795389256103917600, [0x53825ee0]);
  (795431437738659500, [0x4f3c]);
  (795871184747512500, [0x4f599918]);
  (796100279922168050, [0x9418949f]);
  (796117270832072150, [0x775b]);
  (796202268712242600, [0x85cf]);
  (796577120062742000, [0x7db27f51]);
  (796824951664188700, [0x6cb9]);
  (796927682603794500, [0x5c465c4a]);
  (797382677593999300, [0x72b672c0]);
  (797399887816914200, [0x964d]);
  (797520442382449000, [0x5f559304]);
  (797563532829963700, [0x521a525b]);
  (797572153148058800, [0x54689031]);
  (797882980543880700, [0x4e09]);
  (798142743439968600, [0x79c0]);
  (798542361728703800, [0x914d]);
  (798603313448123100, [0x5c816b72]);
  (798716608157178300, [0x9732]);
  (798812573268141800, [0x7965]);
  (798969806004937060, [0x6b226b61]);
  (799223646571892200, [0x6b66]);
  (799777323778405400, [0x7d447ec4]);
  (799803765980313500, [0x96c4]);
  (800547000688136200, [0x8f158f7b]);
  (800564764255107200, [0x5fc5]);
  (800751472466714100, [0x7b54]);
  (800885049226412700, [0x653b]);
  (801027728044981500, [0x8de18ff9]);
  (801465952598186400, [0x5b88]);
  (801663332888357500, [0x5ddd]);
  (801807127287179500, [0x5171]);
  (802149469963871900, [0x521d]);
  (802158494827377000, [0x5b97]);
  (803229188296898200, [0x613f9858]);
  (803778037095081800, [0x7d617edc]);
  (803952469087898300, [0x5224]);
  (804016810282268300, [0x82e6]);
  (804099595551219300, [0x6392]);
  (804477598121812100, [0x663e986f]);
  (804699532742220700, [0x59d0]);
  (805107696574185600, [0x98019875]);
  (805312404936358000, [0x9813987f]);
  (805442892418756000, [0x552e]);
  (805498867791054400, [0x5947]);
  (805891575168115400, [0x4ed8]);
  (806220013505867800, [0x8001]);
  (806530675087797000, [0x8f098f7d]);
  (806615568740020800, [0x5251528d]);
  (806917997852488600, [0x636263db]);
  (807135935115989200, [0x7d22]);
  (807145421431985500, [0x62c9]);
  (807306826641486100, [0x6839]);
  (807687634413174700, [0x98db98de]);
  (808261578977036300, [0x5e935eab]);
  (808463240350414800, [0x8b028c13]);
  (808597907550451300, [0x6d4b6e2c]);
  (808809894525193200, [0x66f2]);
  (808916056770361500, [0x9632]);
  (808964349619129300, [0x64ad]);
  (808993336526912400, [0x6728]);
  (809186797604856500, [0x5e866176]);
  (809341836395602000, [0x4ea1]);
  (809526257704848400, [0x7e3e7ee9]);
  (809681824094997000, [0x538b58d3]);
  (809711019754783100, [0x753b756b]);
  (810424087489252500, [0x5348]);
  (810590876833780200, [0x9752]);
  (810787456413498800, [0x6f14]);
  (811063318657406800, [0x4e887231]);
  (811162025604518900, [0x9650]);
  (811191656697629200, [0x68116a39]);
  (811330051342098600, [0x76d876e4]);
  (811478544167483700, [0x520057fa]);
  (811567745818673100, [0x6885]);
  (811845772013056300, [0x5f845f91]);
  (811895500991156100, [0x5c45]);
  (811905449755030300, [0x92d2950b]);
  (812324194135602400, [0x652f]);
  (812474171667089400, [0x73ed]);
  (812554251751449000, [0x677e]);
  (812574281796583400, [0x6bd2]);
  (813026021760703800, [0x4fdd]);
  (813368694944239200, [0x8b808bfb]);
  (814301859236855000, [0x65e9]);
  (814363021318272300, [0x53f65f798449]);
  (814802447706219400, [0x7d397ecd]);
  (815120445614855000, [0x8aa48bef]);
  (815295261845298000, [0x5e97]);
  (815676803942595500, [0x7834]);
  (815935429235460500, [0x9756]);
  (816163574102644200, [0x654f]);
  (816746666133723500, [0x8cb48d35]);
  (817511909136372800, [0x7bc48303]);
  (817891456244615300, [0x8fde9023]);
  (817923150291682000, [0x592a]);
  (817933717206681000, [0x5ca9]);
  (817975996036187400, [0x82b3]);
  (818580419699096900, [0x6bbf]);
  (818622972891228300, [0x4f1f5049]);
  (818644256279624100, [0x83dc]);
  (818697484577043000, [0x798f]);
  (819231331670219600, [0x51b27530885d]);
  (819392043120677700, [0x4f4e]);
  (819467130278938800, [0x5f027570]);
  (819574495545855400, [0x5a01]);
  (819595982438933400, [0x6388]);
  (819757281468474400, [0x932294b1]);
  (819864958877392300, [0x7dad7ef4]);
  (819983538096806000, [0x904d]);
  (820005113069921200, [0x7f72]);
  (820665395817332500, [0x8089]);
  (820806677153662200, [0x80de]);
  (820915491092581800, [0x793c79ae]);
  (821439452557642400, [0x59d35e995edf]);
  (821527047000996400, [0x7248]);
  (821581832517076500, [0x5fd9]);
  (821691493675121600, [0x91ca91cb]);
  (821713440344802500, [0x7d307ec6]);
  (821878194075298100, [0x7d0d7eb3]);
  (822076257520328600, [0x7591]);
  (822109306267531200, [0x732e737b]);
  (822307828445888400, [0x9152]);
  (822694975658054300, [0x6df1]);
  (822972429917392600, [0x53eb]);
  (823250656127698700, [0x4e3481e8]);
  (823362163721768200, [0x8a8d8ba4]);
  (823406801597746500, [0x52425291]);
  (823563191263222400, [0x5c31]);
  (823630290348719100, [0x5f69]);
  (824247472356072600, [0x8239]);
  (824292507258882900, [0x6e296eab]);
  (824360097663619000, [0x50916770]);
  (824393910005445600, [0x6625]);
  (824540562409190000, [0x88408a138bad]);
  (824766602288435800, [0x6da66f64]);
  (824902471874555000, [0x81118166]);
  (825299815872386600, [0x8acb8bf7]);
  (825447803832686400, [0x98ef996d]);
  (825630244020120000, [0x65a4]);
  (826616603662828000, [0x53855ef3]);
  (826858944096473400, [0x4e94]);
  (826870498779021400, [0x5b63]);
  (826905170839467000, [0x7adf]);
  (827020831273364400, [0x6cc9]);
  (827391846191709000, [0x62d4]);
  (827496442633344400, [0x8f1d8f89]);
  (827717617276792300, [0x76df]);
  (827752584349821800, [0x76ae]);
  (827787563654090300, [0x8f498f6c]);
  (827986011159828200, [0x68b0]);
  (828009383837274800, [0x6cdb]);
  (828114628540902600, [0x56db]);
  (828219984125713700, [0x59b97d277dca]);
  (828489731547825600, [0x5cad5dba]);
  (828972397738853900, [0x932f9519]);
  (829291528084754700, [0x5df4]);
  (829457404900040300, [0x6307]);
  (830554351633343100, [0x59875a66]);
  (830866551694801600, [0x602a]);
  (831131484412384000, [0x4f0d]);
  (831155604045882500, [0x5341]);
  (831203860772600000, [0x84c9]);
  (831276289554134400, [0x9999]);
  (831312523626636600, [0x8857]);
  (831505994061833300, [0x8d70]);
  (831530204206002000, [0x6025]);
  (831590755222081600, [0x8c37]);
  (831614985898236000, [0x53cd]);
  (831857616127661700, [0x6620]);
  (832491223706134600, [0x5b9c]);
  (833165783202737100, [0x59885abd]);
  (833449226611431900, [0x9867987e]);
  (833486256791451300, [0x7d557edd]);
  (833758231245168500, [0x7559]);
  (833795376048418600, [0x5a46]);
  (833993715025053300, [0x840d]);
  (834105453816243500, [0x7dd27eea]);
  (834304409365581600, [0x63e1]);
  (834379119865881500, [0x67427ae596dc]);
  (834528708525039800, [0x51995beb]);
  (834803536930377500, [0x5957]);
  (835041498092199900, [0x70ed71b1]);
  (835254891758817000, [0x676f]);
  (835355470092666700, [0x8f388f93]);
  (835582141893535800, [0x4e0e8207]);
  (835809328662967500, [0x6ce8]);
  (835923115893147200, [0x534a]);
  (836227183022139400, [0x6b8a]);
  (836404983424580100, [0x82e5]);
  (836455841658352700, [0x518d]);
  (836494002315179200, [0x969c]);
  (836506725770887000, [0x65638a5e8bcd]);
  (836544905854074200, [0x672a7f6a]);
  (836621309779858900, [0x6d1e]);
  (836646790732984500, [0x541b]);
  (836697772125880800, [0x6c0f]);
  (837337242267639000, [0x4fee]);
  (837350073473148300, [0x65d7]);
  (837388576971025000, [0x5c3c]);
  (837439938040464300, [0x971e]);
  (837452782430694500, [0x943594c1]);
  (837594179716287500, [0x6b96]);
  (837632777336580100, [0x534f5354]);
  (837645646521335200, [0x4e39]);
  (838019575137033000, [0x6162]);
  (838032494199127000, [0x547c]);
  (838291226555622200, [0x813881c9]);
  (838459762279705000, [0x707588639748]);
  (838654580186637400, [0x5fae]);
  (839019258892434600, [0x9bae9c9c]);
  (839032307760464000, [0x7259]);
  (839071464584040600, [0x5fe0]);
  (839372177368665900, [0x96e8]);
  (839424567677657400, [0x67f1]);
  (839437669544692000, [0x73cd]);
  (839739487239852200, [0x5012]);
  (840226939624583000, [0x780178bc]);
  (840491420074970600, [0x8da3]);
  (840531152543541900, [0x8a898b7d]);
  (841089071100204100, [0x5b83]);
  (841195695127365400, [0x6c99]);
  (841556392866636600, [0x98029876]);
  (841743934783627700, [0x5c1a]);
  (842012463409002800, [0x8c8c]);
  (842160462090574700, [0x8349]);
  (842227806695450100, [0x5dee]);
  (842268235238551800, [0x559c]);
  (842659889463279700, [0x626c63da]);
  (842863072736702400, [0x9f619f84]);
  (843243456295476600, [0x5e8a]);
  (843447829961544700, [0x878d]);
  (843475111369434700, [0x7981]);
  (843570654951397400, [0x8ac78c08]);
  (843762016409465200, [0x574f58de]);
  (843830448630024000, [0x79fb]);
  (843912629157865100, [0x70ae]);
  (843967453720641800, [0x6717]);
  (844008591876861300, [0x6539]);
  (844063469090476200, [0x589967406bba7246]);
  (844407135660076200, [0x628a]);
  (844503574325675600, [0x9f4a9f50]);
  (844945625052419700, [0x8a2a8bbf]);
  (845111899165828400, [0x8b938ba9]);
  (845431366067159500, [0x539a]);
  (845487029859300800, [0x8f2a8f6e]);
  (845556653199856000, [0x67aa69cd]);
  (845668151469247000, [0x65e6]);
  (845765814539444200, [0x62c564d4]);
  (846157423431519900, [0x5e45]);
  (846466195606664400, [0x8861]);
  (846620939957723500, [0x665a]);
  (846649101039295000, [0x6db2]);
  (847213994505869600, [0x575b58c7]);
  (847611327226702500, [0x811a8173]);
  (847725141437309700, [0x5f31]);
  (847753615241602400, [0x62db]);
  (847767855184666700, [0x79cb]);
  (847796341155518700, [0x58c1]);
  (848425094298622900, [0x542c807d]);
  (848956895767549500, [0x9001]);
  (849028978233007500, [0x5144]);
  (849245537907623300, [0x8b66]);
  (849361228448365000, [0x672b]);
  (849564009514375200, [0x5377]);
  (849578509623151500, [0x91dd9488]);
  (849767202617668000, [0x9047]);
  (849825333704903000, [0x5956734e]);
  (850014493455740600, [0x67d3]);
  (850029059037297200, [0x75db]);
  (850043626740724500, [0x6d25]);
  (850276999075346600, [0x7434]);
  (850379270981404600, [0x6258]);
  (850657394559645200, [0x52c7]);
  (850789407780137600, [0x7814]);
  (850804086679246500, [0x5e7f5ee3]);
  (850818767733372500, [0x54285678]);
  (851053958198980000, [0x4f73]);
  (851333967224315400, [0x73b2]);
  (851644365818074400, [0x8247]);
  (851733228383163700, [0x590f]);
  (851777689295344800, [0x4f2f]);
  (851866670466869100, [0x6f6e]);
  (851955730885402400, [0x81088109]);
  (852148967660507900, [0x8a028ba2]);
  (852461910319598600, [0x6253]);
  (853512182539513600, [0x8feb]);
  (853889969161861700, [0x7d1b7eb7]);
  (854193229439766300, [0x5ce15cfd]);
  (854284387148904600, [0x866b87f2]);
  (854588847728130800, [0x6297]);
  (854863657061383200, [0x71d5]);
  (855261941901609800, [0x9192]);
  (855446302070589200, [0x7b147b46]);
  (855677231277979500, [0x6ec5706d]);
  (855708062170778100, [0x7d197eb889e689f8]);
  (856311172326442400, [0x658c]);
  (856513020077607300, [0x5f15]);
  (856699703392558500, [0x9178]);
  (856808763152530700, [0x96ea]);
  (857402886225977100, [0x9375952e]);
  (857795690564807200, [0x7f577f85]);
  (858158438379973800, [0x706f71c8]);
  (858174239912755400, [0x73af74b0]);
  (858205850470945000, [0x76d176e3]);
  (858269101579948100, [0x8b1d8c22]);
  (858792455403154000, [0x95a39601]);
  (859015314457505900, [0x7956]);
  (859031251982442000, [0x8a628be2]);
  (859574644721157100, [0x9d6c9e4f]);
  (859831384271681600, [0x6551]);
  (859895672284181800, [0x76fe]);
  (859960001652756000, [0x96f7]);
  (860249997022735000, [0x5a1c]);
  (860266132561293700, [0x638c]);
  (860621774707886500, [0x80af]);
  (861190188743385600, [0x9014]);
  (861467445709709000, [0x5766]);
  (861532794511250300, [0x4ea9755d]);
  (861696353592527800, [0x5305]);
  (861843785841364000, [0x620f623276d684cb]);
  (862303858949957700, [0x5a5a]);
  (862501682951168300, [0x89bd89c8]);
  (862716434830183000, [0x77ff7926]);
  (862915077504341200, [0x667a]);
  (863413417406096000, [0x4e92]);
  (863847329969414000, [0x9760]);
  (863914253177533300, [0x65e07121]);
  (863930990979898900, [0x8cfc8d2d]);
  (864434432217745000, [0x8fce]);
  (864569112372782700, [0x5821]);
  (864636520531722000, [0x63d0]);
  (864771473318735500, [0x9686]);
  (864855911388432000, [0x53568ce3]);
  (864889706589835000, [0x5c01]);
  (864906608474435300, [0x8457]);
  (865313113099252400, [0x60dc]);
  (865381024816633200, [0x822a]);
  (865619079681647800, [0x5e055e25]);
  (865857702600398600, [0x5761]);
  (865891838118736400, [0x5b878d859806987a]);
  (866302375814737700, [0x4e2556b4]);
  (866319518182140600, [0x5a1f]);
  (866680188388487000, [0x505a]);
  (866697395649993800, [0x5f0368c4]);
  (867232294690862000, [0x73e0]);
  (867752677478364700, [0x7c89]);
  (867804865006730200, [0x6545]);
  (867839671829218800, [0x6089]);
  (867874490771074700, [0x8df58e10]);
  (867909321840740800, [0x958995ed]);
  (868083659402330600, [0x6012]);
  (868153479618118600, [0x4ec1]);
  (868223348616594100, [0x7532]);
  (868310753569278800, [0x888b]);
  (868468275261078500, [0x7a057a0e]);
  (868608503154346100, [0x93e1955c]);
  (869595643199128000, [0x5bfa]);
  (869826201073716600, [0x719f]);
  (869950568150242300, [0x53cc96d9]);
  (869968347508454300, [0x4fd7]);
  (870288917685031000, [0x8a558bc4]);
  (870538962466139800, [0x7de37f18]);
  (870592624930534600, [0x88c2]);
  (870646316206992100, [0x669782308266]);
  (870879312100550800, [0x9707]);
  (870915205855422800, [0x6167]);
  (871112852133041600, [0x72d0]);
  (871998053469180900, [0x56fa]);
  (872016200642808300, [0x65e7820a]);
  (872671701897442000, [0x7c4d]);
  (872708244927265800, [0x4e4f]);
  (872726521451121900, [0x5e84838a]);
  (872817954208703000, [0x518a518c]);
  (873092755151076400, [0x8ca08d1f]);
  (873202887320798200, [0x656c]);
  (873405111858875000, [0x51e49cf3]);
  (873940217850173400, [0x5c975d17]);
  (874014250798215300, [0x6d9b6fe4]);
  (874088338595640100, [0x74e6]);
  (874181025598290200, [0x8f298f88]);
  (874273798589451000, [0x4f5b]);
  (874869592569319500, [0x6881]);
  (875262520383308400, [0x5238]);
  (875920850608228100, [0x9000]);
  (876015252578799800, [0x98039877]);
  (876147565233959300, [0x96b696b8]);
  (876242181571796600, [0x5c4b]);
  (876526568909165400, [0x6843]);
  (876697590328521800, [0x516b]);
  (876773693832956000, [0x60699aa8]);
  (877040513125995600, [0x6c60]);
  (877308046249448600, [0x5403]);
  (877365468013874600, [0x6838]);
  (878076394247643300, [0x8058]);
  (878095678791141600, [0x654c6575]);
  (878559627042631600, [0x6d016f54]);
  (879181592118577400, [0x5854]);
  (879396289185531000, [0x821e]);
  (879415829976995200, [0x756a]);
  (879631031077361500, [0x4fca]);
  (879925235467270800, [0x690d]);
  (880062827626570000, [0x76db]);
  (880378036713401400, [0x4e1d7d72]);
  (880536014629353200, [0x4f46]);
  (880852721149023300, [0x51ef51f1]);
  (880912215449241200, [0x52e4]);
  (880932054750963000, [0x6b4c]);
  (880991596282939300, [0x90ce]);
  (881090911019476800, [0x8f1b8f86]);
  (881190324488246900, [0x5f92]);
  (881588969624510000, [0x8afe8bfa]);
  (882230125898235200, [0x5145]);
  (882250228421169400, [0x72af]);
  (882310560248037100, [0x864e]);
  (882552252208591000, [0x98fe9970]);
  (882774317506266500, [0x5976]);
  (883057661148574300, [0x4eea5100]);
  (883098204429081000, [0x81c2]);
  (883138764153830800, [0x8bda]);
  (883260542127070000, [0x82cf8607]);
  (883341809908869000, [0x627f]);
  (883504543874806500, [0x6e21]);
  (883545268778647700, [0x76ea8361]);
  (883667543095899600, [0x5343]);
  (883728736366549600, [0x52b152f5]);
  (883892101728592000, [0x5de7]);
  (884117165762213900, [0x6fc0]);
  (884260652514309700, [0x6cfd6fa4]);
  (884301686573153800, [0x60ef6163]);
  (884445438523157500, [0x4e708cb7]);
  (884651157583571000, [0x593a596a]);
  (884712955916982800, [0x4ead]);
  (884857300719857200, [0x6389]);
  (885395270153039800, [0x60e0]);
  (885602954547523800, [0x6298]);
  (885706958717065000, [0x6bdb]);
  (885998747169192100, [0x63f4]);
  (886040500823243500, [0x4e245169]);
  (886207689994894000, [0x52d2]);
  (886291389518508200, [0x5c3a]);
  (886354210167626800, [0x68ee]);
  (886479969982985800, [0x4e265e76]);
  (886710941214276200, [0x8336]);
  (887132260565129200, [0x88c1]);
  (887153373201120100, [0x6cea6dda]);
  (887174490295486400, [0x5047]);
  (887322434948911000, [0x708e]);
  (887555362529078300, [0x70df7159]);
  (887767586717390000, [0x91ce]);
  (888172057731819500, [0x7de87f16]);
  (888749661220230400, [0x589e]);
  (889136592055512200, [0x6cca]);
  (889481791966804500, [0x8ca88d27]);
  (889719810038710800, [0x9ea59ea6]);
  (889871571585453600, [0x5c3d76e1]);
  (889893270619931600, [0x9ed8]);
  (889914974363912700, [0x5361]);
  (890001836475780200, [0x8b008c0b]);
  (890241097057564100, [0x607660e1]);
  (890655718491698800, [0x83b284ee]);
  (890940400606661200, [0x542b]);
  (891291894817405600, [0x6676]);
  (891468106316745500, [0x66fc]);
  (891556328642714700, [0x6355]);
  (892020777116664800, [0x835085a6]);
  (892420599950488300, [0x767e]);
  (892487392783874400, [0x4f26502b]);
  (892576519349489000, [0x82738277]);
  (892799683914322800, [0x7bc7]);
  (893135367344677900, [0x96c5]);
  (893337319617960900, [0x5999]);
  (893584705328294100, [0x817e9a30]);
  (893607225314877200, [0x65c1]);
  (893945635113301400, [0x600061f7]);
  (893990843070671700, [0x4f195925]);
  (894013454715765300, [0x6982]);
  (894036071474880000, [0x8cca8d3c]);
  (894603159305153100, [0x5065]);
  (894739740250582600, [0x8cab8d2f]);
  (894830897959721000, [0x5b69]);
  (895013463049223600, [0x72ec7368]);
  (895104870733833000, [0x8a0a8baf]);
  (895196362048540800, [0x7199]);
  (895265035508948300, [0x500d]);
  (895471339307048000, [0x70e771d2]);
  (895494288245760100, [0x58e49ece]);
  (895540201928844000, [0x7d2f]);
  (895793104696127300, [0x8cbf8d38]);
  (895908272277669200, [0x6f20]);
  (895954376473967800, [0x5893]);
  (896000501936040200, [0x5708]);
  (896069730045416300, [0x66ff]);
  (896092816736041800, [0x5e55]);
  (896208330206204000, [0x52b352de]);
  (896231448920906400, [0x82d7]);
  (896300837150821300, [0x5b595b6b]);
  (896997380482445500, [0x627e]);
  (897137273254152100, [0x5fa179a6]);
  (897183947700740500, [0x83cc]);
  (897230643942541700, [0x5830]);
  (897277361999920000, [0x7e2e7f29]);
  (897394252720418400, [0x4ecb]);
  (897534702181708300, [0x6649664b]);
  (897698809591648200, [0x4e5f]);
  (897839687755356400, [0x60ca9a5a]);
  (898122040884117000, [0x8f448f96]);
  (898547071039904200, [0x54908cde8d4f]);
  (898712849645070500, [0x519c8fb2]);
  (898855164659602800, [0x7687]);
  (898973915415749800, [0x95ca9614]);
  (899140403740566200, [0x5b8f]);
  (899259493905885600, [0x5211]);
  (899545890283028400, [0x65e8]);
  (899569793713284600, [0x8edf8f6f]);
  (900145196883213200, [0x745e]);
  (900169244015708600, [0x90029069]);
  (901038814712464000, [0x5a77]);
  (901160188680513800, [0x59d1725b]);
  (901452088668851600, [0x8b6f8bd1]);
  (901647163102817300, [0x7586]);
  (901720414235380800, [0x594f]);
  (901867077669150400, [0x5b54]);
  (902161051423242800, [0x516d]);
  (902382100266782000, [0x4e08]);
  (902529738088874600, [0x7f5a7f70]);
  (902825669254288200, [0x6735812b8131]);
  (902899789084735400, [0x7433788d7919]);
  (902924507908245200, [0x6668]);
  (903023444349657000, [0x627064fe]);
  (903072949301163000, [0x75c7]);
  (903172032787099400, [0x5e2e5e6b]);
  (903320842338369600, [0x5e78]);
  (903395330237530700, [0x7ffc]);
  (903494733824244600, [0x8c46]);
  (903668928219418200, [0x796f798e8389]);
  (903843426581034300, [0x80c18105]);
  (903868379793890000, [0x520a]);
  (904720515276044400, [0x4f0f]);
  (904745688340998000, [0x7bad]);
  (904770867744379200, [0x4eab]);
  (904871648806071400, [0x64cd]);
  (905250484970728500, [0x5bbe8cd3]);
  (905275791816365300, [0x594b596e]);
  (905402422199248300, [0x532f6c47]);
  (905478477469741700, [0x51c06de8]);
  (905808720371173800, [0x52b252c1]);
  (905936027835853400, [0x928094f6]);
  (906037990628271200, [0x51e1]);
  (906318925559563300, [0x5320]);
  (906626302850753700, [0x6d88]);
  (906960364577329500, [0x983b9891]);
  (907011857884337600, [0x53d4]);
  (907037614484608800, [0x679d]);
  (907269722906029200, [0x5cb3]);
  (907580041231080700, [0x4e01]);
  (908125426299327100, [0x8a698bd7]);
  (908151471357424500, [0x842885a9]);
  (908386182640035100, [0x9e7f]);
  (908438415600220000, [0x7de97f13]);
  (908621446112814400, [0x80838085]);
  (908857264380095100, [0x737283b7]);
  (909119938552667000, [0x9716]);
  (909647365935664200, [0x6d89]);
  (909673810468411000, [0x63a7]);
  (909806138130965200, [0x95a59600]);
  (909938641131668600, [0x8dc3]);
  (909965162813298700, [0x82ac]);
  (910044770088300200, [0x521b5275]);
  (910071319935794600, [0x4f344fa04fe0]);
  (910177589871406800, [0x4ed9]);
  (910337206824689100, [0x9b42]);
  (910497078961058600, [0x814a81d8]);
  (910550426521673000, [0x8ddd]);
  (910844347908956000, [0x70bc71498ce28d24]);
  (910897881100812700, [0x533b91ab]);
  (911005033535388600, [0x507f511f]);
  (911246547137284900, [0x574a]);
  (911461716666239300, [0x7e5e7ed580a4819a]);
  (911542524751444600, [0x6da86f32]);
  (911569475297356200, [0x6bc06bc1]);
  (911623398188929800, [0x4e95]);
  (911677350172973900, [0x6c57]);
  (911785341544160100, [0x5f7b5fb9]);
  (912164232389856000, [0x9ec39ec4]);
  (912191351034090000, [0x5370]);
  (912245610395160600, [0x86cb]);
  (912408565347026900, [0x505c]);
  (912626252507820900, [0x5ef6]);
  (912708007519868800, [0x6d1b]);
  (912844414579623000, [0x8896]);
  (912926348217963100, [0x585e]);
  (913145166686018500, [0x820d]);
  (913254755738082100, [0x9910]);
  (913391911156648000, [0x95f99b27]);
  (913611751860742400, [0x5f526b78]);
  (913859651726024700, [0x6d2a]);
  (914135818706297700, [0x80a08178]);
  (915949737563195600, [0x7239]);
  (916429625569540300, [0x9ed1]);
  (916457926121589800, [0x9ebb]);
  (917082573240661000, [0x6842]);
  (917310688537755700, [0x65cb]);
  (917510717179961700, [0x886588dc]);
  (917825858538042000, [0x79d8]);
  (918170785583097000, [0x51885ca1]);
  (918401399695104100, [0x58ee58ef]);
  (918430263889271700, [0x5fc661b6]);
  (918516906493970000, [0x5fcc]);
  (918603624233180800, [0x6211]);
  (918719364986842000, [0x8ab28bfe]);
  (918777285637172400, [0x88ad8972]);
  (918864229563820300, [0x5fbd]);
  (918922234205817800, [0x70e67169]);
  (919329211511735200, [0x98469897]);
  (919884200522065900, [0x4e03]);
  (920148168999143000, [0x665366c9]);
  (920560176644940500, [0x5c3e]);
  (920619173696799300, [0x4ef0]);
  (920766818784893000, [0x5948846c]);
  (920914682186075400, [0x968f]);
  (921211066516849000, [0x921e94a7]);
  (921746782083773300, [0x54c8]);
  (921925993601271500, [0x5be8]);
  (921985802215494500, [0x907f]);
  (922225395022532000, [0x66fe]);
  (922315390528831000, [0x5b8b]);
  (922525695548509000, [0x7cd6]);
  (922646068719829800, [0x4f11]);
  (923098763019407400, [0x53f95606]);
  (923129015628925700, [0x59c6]);
  (923189548318425500, [0x8154]);
  (923401701754568200, [0x50e7]);
  (924469273278572400, [0x5510]);
  (924653435393237400, [0x4ed7]);
  (924837937290594400, [0x7e6a7ed8]);
  (924930316050050600, [0x900a905c]);
  (925022780226772700, [0x810f81df]);
  (925177077433746400, [0x4f5453606d6a]);
  (925269770164004300, [0x56f0]);
  (925331613084961000, [0x5b8c]);
  (925362548893405700, [0x7e7c7ee7]);
  (925424449235834200, [0x535a9677]);
  (925796658102271600, [0x93969501]);
  (925952154945918500, [0x7d147eaf]);
  (926357581978722600, [0x58f36bbc]);
  (926670571279615300, [0x8000]);
  (927331054888412300, [0x5bd2]);
  (927488957968750000, [0x62dc]);
  (927552189080562600, [0x523a]);
  (927837224902998300, [0x63776c9f6e9d]);
  (927932417675536500, [0x8cf48d56]);
  (927995929903774900, [0x59fb]);
  (928218540903639800, [0x8fc19077]);
  (928697239759362200, [0x7bb1]);
  (928921419196724000, [0x5634]);
  (929081855618110100, [0x63a18ed28f6991c7]);
  (929403502727193500, [0x57238056]);
  (929693872345634800, [0x7897]);
  (930049917389182400, [0x80cc]);
  (930114789269498300, [0x6beb]);
  (930374698447650200, [0x6590]);
  (930439781430748200, [0x92b3951096de9e21]);
  (930537485395530700, [0x4e308c50]);
  (930570074608789700, [0x6eaa]);
  (930635284914328400, [0x79a7]);
  (930994703696934800, [0x8f9e8fad]);
  (931027442279646600, [0x7a81]);
  (931060191584016600, [0x9f529f7f]);
  (931289737511993600, [0x65ed]);
  (931717440088646300, [0x70b8]);
  (931849409754780600, [0x5085]);
  (931981553811010200, [0x92ea94fa]);
  (932312679941375900, [0x59496b276b50]);
  (932379036944474200, [0x7af9]);
  (932611633826212500, [0x7a3780c681bd]);
  (932711484059171300, [0x9cf49e23]);
  (932878122991250000, [0x51c96dbc]);
  (933078456948067500, [0x6212]);
  (933111884994509600, [0x61706302639b819c]);
  (933178774629110600, [0x6068]);
  (933245709035893400, [0x62f3]);
  (933312688274834200, [0x7624]);
  (933346194725139200, [0x6ce5]);
  (933951238587716600, [0x51b0]);
  (934153736125693800, [0x8a0e8ba8]);
  (934424372285468200, [0x4f38]);
  (934661781248935600, [0x526f]);
  (934729716034157000, [0x679a]);
  (934865724215612600, [0x6c89]);
  (935240703349384200, [0x79c1]);
  (935343214890908700, [0x59bb9700]);
  (935377408770537500, [0x8fb1]);
  (935548553772092900, [0x51b7]);
  (935582817949231300, [0x92fc94a2]);
  (935719992181989300, [0x635f640d]);
  (935754315161560900, [0x5438]);
  (936305091080569300, [0x76d09e7d]);
  (936512416655869700, [0x788e]);
  (936754841017020500, [0x77ed8c9d8d1d8e2a]);
  (936789521093664100, [0x6c926ca1]);
  (936858917349051400, [0x60d1]);
  (937241459982137700, [0x7cbe]);
  (937346044269167300, [0x5339]);
  (937380930018692700, [0x4f10]);
  (937450738049450800, [0x5806]);
  (937625471625273100, [0x8fb0]);
  (937695450634427100, [0x624e]);
  (937765478648493400, [0x62df64ec]);
  (937800511053826300, [0x8ca18d22]);
  (937975857407713500, [0x8033]);
  (938046082129700700, [0x6746687f]);
  (938257052672085700, [0x540f57065713]);
  (938362705085505600, [0x7c92]);
  (938751055088145300, [0x4e5d]);
  (938786434533057200, [0x748b]);
  (938821826499450300, [0x5fcd]);
  (938892648032155500, [0x8f9f95e2]);
  (939069921611641900, [0x7891]);
  (939176436800125300, [0x6566]);
  (939247510008518700, [0x5733]);
  (939567966042056400, [0x6bc5]);
  (939746441905959000, [0x80a5]);
  (939817921537308400, [0x7fbd]);
  (939853680522134200, [0x817f]);
  (940319714704915400, [0x85fb]);
  (940751836371206600, [0x666e]);
  (940968599461861000, [0x537f6398]);
  (941439870952180900, [0x7238]);
  (941476214765047000, [0x7a7f]);
  (941548942040979900, [0x72f17344]);
  (941621722247977000, [0x5bb8]);
  (941949890272665000, [0x66b4]);
  (942279138786670600, [0x5974]);
  (942425820147769900, [0x80b4991a]);
  (942499241590128500, [0x6912]);
  (942535972536363300, [0x6ee97058]);
  (942756641989645800, [0x96d59df99e70]);
  (942793467620700700, [0x629a64ab]);
  (943014706648995000, [0x58755c18]);
  (943051627454287800, [0x6101]);
  (943088561896074200, [0x7cca]);
  (943162471729446100, [0x72d7]);
  (943569955160473500, [0x4f9d]);
  (943644221781042500, [0x9b3c]);
  (943904590163208000, [0x865a865b]);
  (943941841048347100, [0x934b9505]);
  (943979105814941900, [0x5983]);
  (944165638232392500, [0x5bf8]);
  (944315115091315600, [0x74647476]);
  (944427369546508400, [0x714c]);
  (944539750153953000, [0x5409]);
  (944652257197509800, [0x5c0a8dd1]);
  (944802463759735500, [0x764c]);
  (944877651733202300, [0x5ba15be9]);
  (944952896281523100, [0x57508499]);
  (945103555443730400, [0x541f]);
  (945178970228601800, [0x7483]);
  (945367756390014300, [0x8f148f85]);
  (945708472222175800, [0x8fea]);
  (945822302627181700, [0x78e8]);
  (946088411888950500, [0x80c081399f13]);
  (946202675851106400, [0x9063]);
  (946317070525163700, [0x8c6a]);
  (946355231181990100, [0x8ff7]);
  (946393406406733300, [0x6c1b]);
  (946584501439087600, [0x8b5c8c31]);
  (946661041817872100, [0x5eca]);
  (947044624950259400, [0x90e1]);
  (947314011297505400, [0x8c6b]);
  (947506875388146000, [0x707d707e]);
  (947622772638901400, [0x57f9]);
  (947816233716845600, [0x6b32]);
  (947932490269370000, [0x8cbc8d34]);
  (948010069792267800, [0x6696]);
  (948437836339946100, [0x5f6a]);
  (948593842611836500, [0x575a5805]);
  (948632882237551900, [0x7f3a90ca]);
  (949416892525487900, [0x8d0a8d5e]);
  (949692754769395900, [0x58fd5bff]);
  (949732225857337000, [0x5203]);
  (949890266190508000, [0x51a0]);
  (949969380118684900, [0x805a]);
  (950326169397075100, [0x4ec7]);
  (950405629075471300, [0x5824]);
  (950564738098695400, [0x517d7378]);
  (950684236220862100, [0x8944]);
  (950724100682223200, [0x60e761fc]);
  (950843789505607800, [0x83f2]);
  (951043589771875200, [0x75747587]);
  (951083597774009200, [0x62fe]);
  (951163661829527000, [0x6768694a]);
  (951243790038942500, [0x5531]);
  (951364102866770100, [0x609f9636968e]);
  (951444391911629000, [0x70c2721b7272]);
  (951605163650438800, [0x5c16]);
  (951967847908568400, [0x70ad]);
  (952453482209825400, [0x8679]);
  (952656527964863500, [0x53ec88d5]);
  (952697186635885100, [0x608560a6]);
  (952900728330418700, [0x77e9]);
  (953023052504693200, [0x7b2c]);
  (953145526494282800, [0x632f]);
  (953227259232792600, [0x5a03]);
  (953268150666607100, [0x7db17eb2]);
  (953472859028779700, [0x90c19b31]);
  (953554859853382700, [0x6ef47fd4]);
  (953677987305835400, [0x592268a6]);
  (953719063502757000, [0x68af]);
  (954172018775851800, [0x5b99]);
  (954213298446200600, [0x5bbf]);
  (954254595163698500, [0x96fe9727]);
  (954502734248837100, [0x7d0b7eb9]);
  (954751490596017200, [0x4faf]);
  (955668928223621400, [0x8abc8c0a]);
  (955836643147630100, [0x9b6f9c81]);
  (955920606208818100, [0x85aa]);
  (956172919210630200, [0x4fc3]);
  (956341482250963900, [0x752b809a]);
  (956891282747772800, [0x74dc]);
  (956933700563891200, [0x684c]);
  (957018590212452500, [0x86808755]);
  (957103551984768200, [0x916c]);
  (957401487936162400, [0x8017]);
  (957572136441738100, [0x88ab]);
  (957743076654303000, [0x558a]);
  (957914309572854200, [0x601c6190]);
  (958171709972371500, [0x51cf6e1b]);
  (958214674527275200, [0x8b1b8bb2]);
  (958300659055358800, [0x542f555f]);
  (958386717580463500, [0x6de1]);
  (958559057131951200, [0x4ec0]);
  (958645338414266700, [0x538953b2]);
  (958861367878277600, [0x929894ed]);
  (958904629830066400, [0x7ffb]);
  (959251400875435900, [0x6602]);
  (959338281853967900, [0x5e06]);
  (959425238381186100, [0x7a74]);
  (959599378608039900, [0x7a777aae]);
  (959773822612154800, [0x6cf07da07eff]);
  (959817481202675900, [0x6028]);
  (960036060524673800, [0x7e41]);
  (960211268629065600, [0x5954]);
  (960518623426456300, [0x70b3]);
  (960650636646948500, [0x731b]);
  (960915187065790900, [0x7d217eba]);
  (961047725189897800, [0x51ac]);
  (961091943629707400, [0x900f]);
  (961490791931546300, [0x7e317eb5]);
  (961624095661572800, [0x575d58e9]);
  (961980443477411700, [0x5df7]);
  (962025076372595800, [0x7720]);
  (962069729197628800, [0x7f8a]);
  (962248540152737400, [0x4e1b53e2]);
  (962293292894589800, [0x6ee86ff179df]);
  (962338065673488600, [0x8258]);
  (962382858507384100, [0x7235]);
  (962831893837546800, [0x680f6b04]);
  (962966998564245000, [0x76d776dc]);
  (963057169895873200, [0x9010]);
  (963192579530646100, [0x80f681a0]);
  (963282954593281800, [0x70897210]);
  (963418670515492600, [0x5237]);
  (963554570876159600, [0x5524559a5c09767b821f]);
  (963599912069409800, [0x8e48]);
  (964008910594562200, [0x77a7]);
  (964328181105218000, [0x58576d82]);
  (964648474218202700, [0x743c74ca]);
  (964786057363042500, [0x7def7eac]);
  (964831960508213800, [0x7267]);
  (964923830059921000, [0x682a9b4f]);
  (965061792831861400, [0x6050959295f2]);
  (965246039774817000, [0x57c39012905e]);
  (965661840789683300, [0x72c2]);
  (965754476275696300, [0x8292]);
  (965800826218588800, [0x969096b1]);
  (966265511069626200, [0x53758fd89084]);
  (966405338638435100, [0x8d6b]);
  (966451991310146700, [0x7a3f]);
  (967060464987157300, [0x746983b9]);
  (967154405811351000, [0x56ca]);
  (967201409337480700, [0x886b]);
  (967295482721652700, [0x963b]);
  (967342552621321500, [0x6469]);
  (967672663744018000, [0x4e18]);
  (967767181709466600, [0x63a2]);
  (968098699891379200, [0x5c385c4d]);
  (968146149477085400, [0x67569676]);
  (968193621588112300, [0x5272607c60f1]);
  (968288633471744300, [0x6a2a6a6b]);
  (968336173287234400, [0x62479ce59e1f]);
  (968717307621880500, [0x597859e6]);
  (968860608339023000, [0x7940]);
  (969195777434214300, [0x9189]);
  (969387808218141000, [0x65ec76c8]);
  (969483962071703200, [0x501f]);
  (969628366428926500, [0x54ed612461a4]);
  (969724751978557200, [0x80ce]);
  (969772979613926400, [0x6f2b]);
  (970062834889327500, [0x74f68179]);
  (970111225889546000, [0x8352]);
  (970208078197359000, [0x817a]);
  (970256539550379100, [0x7cae7ce7]);
  (970402064679141700, [0x559d888d]);
  (970742449155611100, [0x9022]);
  (970791170228438300, [0x5b85]);
  (971132884009814200, [0x4fb5]);
  (971918356874922800, [0x674e68d2]);
  (971967654386397000, [0x65a5]);
  (972461970766148900, [0x8102]);
  (972561127938378400, [0x786c]);
  (972759737735541400, [0x6094]);
  (973058394005316400, [0x63aa]);
  (973108256883437400, [0x622a]);
  (973257994869987700, [0x5609]);
  (973357944903296000, [0x5cfb]);
  (973608257925108000, [0x6ccc]);
  (973658395805326000, [0x6016]);
  (973758747043050000, [0x58a86db5]);
  (974060406396992600, [0x52a3]);
  (974110771545375300, [0x5e0c]);
  (974615823123982100, [0x82d1]);
  (974717140255242900, [0x8150]);
  (974767837341246200, [0x6c38795d]);
  (974818560142232300, [0x5c48]);
  (974869308684301000, [0x90a3]);
  (975021709018598400, [0x75ab]);
  (975429249063050300, [0x614e]);
  (975684807597231600, [0x67d4]);
  (975735997769836400, [0x8377]);
  (975838456795193200, [0x66f4]);
  (975941020906748200, [0x6168]);
  (976455425333239200, [0x5858]);
  (976507011612433300, [0x604b62009177]);
  (976558624516804800, [0x503a50b571157165]);
  (976610264073852200, [0x603b7e3d]);
  (976817089380258000, [0x81808cb88d37]);
  (976868862614653000, [0x7b26]);
  (977440144355321600, [0x6daf]);
  (977596516552940000, [0x6ed1]);
  (977857681496369800, [0x7f759a82]);
  (978014708484929700, [0x50da]);
  (978171982436089700, [0x53c253c3]);
  (978382066546970800, [0x745c]);
  (978645293864003000, [0x5f6c]);
  (978698022576007700, [0x6108]);
  (978856375736572000, [0x524a]);
  (979014980052135500, [0x7a4e9896]);
  (979067904107353500, [0x52cb52f3]);
  (979332945343873500, [0x680b68df]);
  (979386037991789100, [0x7a337a698584]);
  (979439158842971800, [0x60a3]);
  (979598690916157900, [0x9d519e43]);
  (979865144577667600, [0x78ca]);
  (979918520613095500, [0x6643]);
  (980132310111948000, [0x5374537b]);
  (980346557649712800, [0x60b695f7]);
  (980453853797345500, [0x6df3]);
  (980668792085360000, [0x7709]);
  (980722598920126000, [0x6084]);
  (981316392837580400, [0x4f306850]);
  (981370549351224700, [0x978b]);
  (981750468397072300, [0x664c]);
  (981859282335991800, [0x8ae78c10]);
  (982022725575863300, [0x649e9db49e64]);
  (982295726018417900, [0x6127]);
  (982350415656094900, [0x59a8]);
  (982405135219703700, [0x72ee7345]);
  (982679183075514000, [0x582a]);
  (982843973005692100, [0x6d466f3f7b52]);
  (982898963383761900, [0x5fe76182]);
  (982953984017887300, [0x8236]);
  (983064116187609300, [0x90bb9130]);
  (983284745069163000, [0x53067a00]);
  (983561217459811300, [0x621a]);
  (983838456339908700, [0x5764]);
  (983893996469078800, [0x68c06aa2]);
  (983949567462451000, [0x4fe9500652c38106]);
  (984060802179148600, [0x7fb2]);
  (984116465971289900, [0x9e93]);
  (984395250651433300, [0x68636a94]);
  (984506982506632500, [0x62e564c1]);
  (984674814713860000, [0x6021]);
  (984899030054428900, [0x797f7984]);
  (985067522090920800, [0x5e7c]);
  (985180008042039300, [0x9187]);
  (985236298502292800, [0x62b182318259]);
  (985348974570551800, [0x5e1c5e5f]);
  (985687766537745500, [0x8ad28c05]);
  (985857593920764700, [0x6ce186c7]);
  (986141282054284600, [0x6670]);
  (986254983032992200, [0x93c894fe]);
  (986368813437998200, [0x4f18512a5507]);
  (986425777267507800, [0x76c6]);
  (986482773564291500, [0x739b746a]);
  (986711084165748400, [0x632164cb]);
  (986882659844098800, [0x5c7f5dbc80a2]);
  (987054530410612000, [0x5ae9]);
  (987111886305502200, [0x6dfb7b3c7c60]);
  (987169275116259600, [0x5bbd5bec]);
  (987284151636646900, [0x71309694]);
  (987514301335474800, [0x7a97]);
  (987571921619408500, [0x78b19e7c]);
  (987918342289175300, [0x8302]);
  (988092003693167000, [0x9f20]);
  (988207945735140600, [0x6478]);
  (988498390319219500, [0x9699]);
  (988556580603084400, [0x742a]);
  (988789680941731900, [0x99db9a76]);
  (988906435187335700, [0x4e135c0866566689]);
  (989081822545945300, [0x626e65f176d28fc5]);
  (989257518052342000, [0x946b]);
  (989374820118578300, [0x732a8c6c]);
  (989727554170375000, [0x6d17]);
  (990022452644190800, [0x67d0]);
  (990199810065792500, [0x7bee7c43]);
  (990258999176724300, [0x7fe084c48fdf9072]);
  (990318223341914100, [0x68da]);
  (990555471377277100, [0x59655967]);
  (990733777516642900, [0x53c9]);
  (990793283617774000, [0x5dfe]);
  (990852825149750200, [0x6c646e6f]);
  (990972014675183600, [0x6208]);
  (991151065752562300, [0x80bf816b]);
  (991390300316424300, [0x7d107ebd99d59a7e]);
  (991630108584825500, [0x8a1f8bbc]);
  (992232157362983900, [0x5f0491d7948a]);
  (992716419810562700, [0x6df56e0a]);
  (992777117839740300, [0x4fa850d1]);
  (992837852733802800, [0x8170]);
  (992898624537557000, [0x7e2b7f1d]);
  (993142081748495400, [0x51798332]);
  (993325064416203000, [0x6d66]);
  (993386133120390900, [0x92749451]);
  (993447239141235100, [0x7f69]);
  (993692037305099200, [0x72e0]);
  (993753330595403000, [0x65fa71e5]);
  (993814661477423700, [0x8ce68d4b]);
  (993937436201255800, [0x7b4b]);
  (993998880135600500, [0x7d177eb1]);
  (994306667389968600, [0x99b39a70]);
  (994368338683936800, [0x51e05e7e]);
  (994553581095660600, [0x60466052]);
  (994801105974515000, [0x7a3b]);
  (995111376158266100, [0x64906491]);
  (995173545883613300, [0x5915]);
  (995422612014858500, [0x5371]);
  (995609819557833000, [0x5bb47cb9]);
  (995672300034717100, [0x6296]);
  (995859976036003000, [0x641664476c836e7f6fd5]);
  (995985289335609800, [0x54017c72]);
  (996048004922488400, [0x6155]);
  (996299261336076600, [0x8a3a8bca]);
  (996362174203832800, [0x829d]);
  (996488118804863500, [0x6e58]);
  (996551150638025000, [0x9f0e]);
  (996614222226366300, [0x5baa61b2]);
  (996677333620067300, [0x8c9e8d1e]);
  (997056840716922500, [0x95b19605]);
  (997247135731531000, [0x730e7375]);
  (997437793558589200, [0x659c]);
  (997501427031942200, [0x67f36d69]);
  (997565101023269000, [0x99d09a7b]);
  (997756366621902300, [0x4ec650d596ef]);
  (998718220783188000, [0x5e3d]);
  (998911706815817400, [0x6731]);
  (998976285442537200, [0x84ec]);
  (999040905800197800, [0x75387761]);
  (999105567942767600, [0x4e8f8667]);
  (999170271924319800, [0x8e81]);
  (999235017799032300, [0x6f0f928594dc]);
  (1000015255827450700, [0x6cf3]);
  (1000276693884857900, [0x6b3d94a6]);
  (1000407669673064000, [0x4e326f6d]);
  (1000604455567988200, [0x59ae]);
  (1001594236000714300, [0x686269687978798d]);
  (1001859840406525800, [0x747e]);
  (1001926351882206800, [0x61be68cb]);
  (1002126152148474200, [0x6905]);
  (1002192841047244600, [0x55616d8c6e67]);
  (1002259574449788000, [0x8155]);
  (1002326352415541600, [0x9a199a97]);
  (1002460042275025700, [0x626367346a389905997c]);
  (1003063868329734000, [0x8d768d95]);
  (1003333410271901200, [0x62ff]);
  (1003400909430724600, [0x7262]);
  (1003468454181688300, [0x4e58]);
  (1004214473240116600, [0x8854929c]);
  (1004350713043206200, [0x50a851327a9d7aa9]);
  (1004897536005225900, [0x6bd57562]);
  (1005034710237983800, [0x97f597fb]);
  (1005103367981841200, [0x5ac2]);
  (1005172072896945100, [0x7070]);
  (1005309624500476100, [0x65c56851]);
  (1005447365569085600, [0x51f07fc1]);
  (1006000234980117400, [0x4ed15d19]);
  (1006069559073015000, [0x6687]);
  (1006138931257552100, [0x4fd85c4f]);
  (1006208351600499800, [0x8cc08d3a]);
  (1006765456105445400, [0x5c2c]);
  (1007045176567551400, [0x51b6]);
  (1007115229109820700, [0x8fd4]);
  (1007185330760080300, [0x6065803b]);
  (1007395931048519200, [0x56175c1d5faa]);
  (1007536578047794300, [0x4eff]);
  (1007747920148297100, [0x755c]);
  (1008101152589051700, [0x6eda6efe]);
  (1008171949052185600, [0x7779]);
  (1008242795672223000, [0x984f989c]);
  (1008313692520283000, [0x5b5575be]);
  (1008526685146065400, [0x6c41]);
  (1008597783620443300, [0x52fb5300]);
  (1009096893390956300, [0x818f]);
  (1009311562525272500, [0x754f]);
  (1009383221431957800, [0x62bc66a27545]);
  (1009526693479523700, [0x8f9b]);
  (1009742288245030700, [0x9704]);
  (1009958348826021200, [0x7e697ef3]);
  (1010030472882519500, [0x6a9075d57c37]);
  (1010102648995360600, [0x83c7]);
  (1010174877239742800, [0x6234]);
  (1010247157691028600, [0x535c]);
  (1010319490424743000, [0x70db71ed7533]);
  (1010536803078174200, [0x6c9b]);
  (1010609345700144000, [0x9a0e9a91]);
  (1010900043579275000, [0x8fa98faf]);
  (1011191588975287400, [0x751c]);
  (1011337681039254800, [0x832b]);
  (1011630507017163600, [0x58a9]);
  (1011703847687851000, [0x7ff0]);
  (1012071360045640300, [0x54bd]);
  (1012218744007470200, [0x6444651d69fd]);
  (1012366345510282400, [0x79e68fa3]);
  (1012440228040425600, [0x5bfb]);
  (1012514165197213400, [0x9c2d9ccd]);
  (1012588157061484600, [0x50b2658b723d806a8070857e9f4b]);
  (1012662203714257000, [0x7802]);
  (1012884673216468000, [0x86ee883b]);
  (1012958939837037000, [0x9d3b9e3f]);
  (1013405701563008600, [0x8b198c26]);
  (1013779533774069500, [0x73a99642]);
  (1014380587424283700, [0x5851]);
  (1014606917207809100, [0x818a]);
  (1014682474446008900, [0x5a9b]);
  (1014758088816341300, [0x504f]);
  (1014833760405271900, [0x6b23]);
  (1014909489299462700, [0x5021]);
  (1015212979668978100, [0x8c5a]);
  (1015365070953048800, [0x74f7]);
  (1015441203427224800, [0x9738]);
  (1015746314266514400, [0x62d3853d]);
  (1015975759873866700, [0x67cf]);
  (1016052358881825000, [0x80aa]);
  (1016129016608844500, [0x9640]);
  (1016282508580653000, [0x8ca78d2b]);
  (1016436236512541500, [0x8c79]);
  (1016898843351419800, [0x8ecc8f68]);
  (1017053522423249700, [0x5d1696349670]);
  (1017208441121932500, [0x758f]);
  (1017363600191074500, [0x85af]);
  (1017441270097891800, [0x8587]);
  (1017596791124572400, [0x886e889e]);
  (1017752554395940700, [0x810a]);
  (1017986655166138000, [0x52ab]);
  (1018064810699620200, [0x958395ea]);
  (1018221305254250500, [0x5b5d]);
  (1018692263738559000, [0x8dcc]);
  (1018770972912240700, [0x57f76267]);
  (1018928577357787200, [0x6606932b9521]);
  (1019086430587092300, [0x4f8d59377a9f]);
  (1019244533386824000, [0x6cbf]);
  (1019323678622455300, [0x6e836f70]);
  (1019561490862952100, [0x7cd5]);
  (1019640887453069700, [0x70e4]);
  (1019799869998479600, [0x54105eb8]);
  (1019959105700916000, [0x5351]);
  (1020118595367897500, [0x6d6e]);
  (1020278339810813300, [0x903598109884]);
  (1020438339844946500, [0x53e0758a]);
  (1020598596289500800, [0x4e2755aa]);
  (1021000364608162000, [0x9e9f]);
  (1021403753618255500, [0x561b]);
  (1021484627055740700, [0x6876]);
  (1021565565951296700, [0x55fd8877]);
  (1021646570410971000, [0x54e86c619644]);
  (1021889978239059000, [0x60e961f2]);
  (1022052579900900900, [0x98389888]);
  (1022378578559621700, [0x4f0a]);
  (1022541977288787200, [0x718a]);
  (1022705643446434000, [0x5029]);
  (1022787577084774200, [0x4f01]);
  (1022951646030520200, [0x6e20]);
  (1023033781558751600, [0x7e557f2e]);
  (1023198255280039400, [0x6e89]);
  (1023362999963099400, [0x54279b44]);
  (1023445474194578400, [0x83b1840a]);
  (1023528016502195100, [0x594e8b398c28]);
  (1023610626998425700, [0x864f865c]);
  (1023693305796025000, [0x96c0]);
  (1023941753128791300, [0x7490]);
  (1024190819260036500, [0x4f6971c3]);
  (1024273979347989000, [0x50765578562f]);
  (1024607312989965000, [0x8d9f]);
  (1024690820301707100, [0x5fd88a1d8bb6]);
  (1024774397406446600, [0x9003]);
  (1025025548647712800, [0x745b]);
  (1025361401188426100, [0x8870]);
  (1025782809313109200, [0x5a928010]);
  (1026121219111533400, [0x7f627f77]);
  (1026375780131476700, [0x5112]);
  (1026545848199678400, [0x53a58702]);
  (1026801493843808500, [0x5a256dee]);
  (1026972288078324200, [0x7a84884d]);
  (1027057794710297500, [0x8df3]);
  (1027229027628848700, [0x906d]);
  (1027400554257524200, [0x573e]);
  (1027572375605638000, [0x659173ca]);
  (1027744492687715200, [0x82bd]);
  (1028003225044210300, [0x6f06]);
  (1028435938830598500, [0x9a5f9aa4]);
  (1028696468721774900, [0x6c70]);
  (1028783463072628700, [0x4e54535255ac]);
  (1028957679144567400, [0x7dbf7ef5]);
  (1029482155871296800, [0x895f]);
  (1029657594512786100, [0x62cd]);
  (1029921330929394700, [0x5ec9]);
  (1030097542428734600, [0x67a26a1e93269526]);
  (1030185764754703800, [0x66556688]);
  (1030362443245892300, [0x732b8c93]);
  (1030450899686865700, [0x88d49038]);
  (1030539434442538200, [0x84b8]);
  (1030628047651704000, [0x660f]);
  (1030716739453526800, [0x5751]);
  (1030805509987540900, [0x8cec8d2690599065]);
  (1030894359393652200, [0x626f]);
  (1031072295383660100, [0x6817]);
  (1031161382249240300, [0x82a68606]);
  (1031250548550288400, [0x58f658fa614c]);
  (1031339794428590300, [0x4ed35009]);
  (1031429120026311900, [0x5b9b]);
  (1031518525486000000, [0x699c]);
  (1031697576563378700, [0x75bc]);
  (1031876948808781500, [0x6cab79bd]);
  (1031966755729950000, [0x8fa8]);
  (1032146611893541400, [0x7a46]);
  (1032597672649276400, [0x67dc6ac380fa90aa]);
  (1032688129462319000, [0x8482]);
  (1032778668173800300, [0x5f3c]);
  (1033232595417142200, [0x7b797c4c]);
  (1033323628650556700, [0x5bc7]);
  (1033414744829981300, [0x5a075b0c]);
  (1034054893335185500, [0x607061486cc46d29]);
  (1034146678564208300, [0x5446]);
  (1034330502145383500, [0x7426886299ff9a8f]);
  (1034422540808116300, [0x6f5b6f5c]);
  (1034514664260048500, [0x62e66514]);
  (1034791544916861700, [0x8d748d8b8da8]);
  (1034884009093583600, [0x4f5053668a738be6]);
  (1035069194331690800, [0x8328]);
  (1035347616785331400, [0x5f2668cd]);
  (1035533663350623400, [0x9ad3]);
  (1035626816594434500, [0x70ef8086]);
  (1035906798111909100, [0x80e19102]);
  (1036093888905490300, [0x626b6383]);
  (1036187565727329000, [0x5ffd7384]);
  (1036375183043151800, [0x854a91f59497]);
  (1036469123867345500, [0x5146644a6524]);
  (1036563153023309500, [0x4e7e53a65ec8]);
  (1036657270677316000, [0x6295]);
  (1037034629615679800, [0x5f655f66]);
  (1037508339644106800, [0x6ede6eef]);
  (1037603351527738800, [0x68c980a9]);
  (1037698453769809200, [0x8cdc8d50]);
  (1037888930017874700, [0x635e6488]);
  (1037984304369405600, [0x54f2768b]);
  (1038750591643962600, [0x50775192]);
  (1039135948575561500, [0x5a9a]);
  (1039232520287557400, [0x54335434]);
  (1039329185350667000, [0x60a0]);
  (1039619742455808400, [0x6960]);
  (1039716782735136200, [0x8ef88f74]);
  (1040105888284432800, [0x5e7b633a]);
  (1040203401700253500, [0x579258d85ac1]);
  (1040986951252648400, [0x632464e0]);
  (1041085328043661700, [0x6b67]);
  (1041282372442391600, [0x7f50]);
  (1041776688822143400, [0x7aed7bf7]);
  (1042074455791536000, [0x68f5]);
  (1042373112061310900, [0x6bef]);
  (1042472862693023400, [0x820c871c]);
  (1043073465099044500, [0x78c1]);
  (1043173917141645100, [0x57a3]);
  (1043375124452987100, [0x798579aa]);
  (1043576737424505700, [0x8205]);
  (1043677696544640700, [0x8aa68bf5]);
  (1043879921082717600, [0x53a25ec2]);
  (1044285601152279000, [0x55bb76969d239e2a]);
  (1045307060493250800, [0x819b]);
  (1045615544028372000, [0x5bc2673d]);
  (1046028341312174900, [0x563f920994a0]);
  (1046339061396449700, [0x662d]);
  (1046442849677691800, [0x83ca]);
  (1046650749960475000, [0x6ce3]);
  (1046859083369160500, [0x51cc]);
  (1046963413060418300, [0x51bb51cd5eb57e8f7f20]);
  (1047172399552364300, [0x788c88f9]);
  (1047277056809431400, [0x5c516cfc6f51]);
  (1047381823712675700, [0x5d69]);
  (1047486700492084200, [0x538c53ad]);
  (1047591687378367800, [0x527f9830988a]);
  (1047801992398045800, [0x5de2]);
  (1047907310996511600, [0x88b1]);
  (1048118281538896600, [0x6ea58a93]);
  (1048223933952316500, [0x4ef2]);
  (1048329698108130000, [0x828b]);
  (1048541562594158600, [0x60d5]);
  (1048753876898966400, [0x63497da27ef8]);
  (1048860203331099500, [0x9a459a71]);
  (1048966642936678000, [0x59ff]);
  (1049179862633662100, [0x99a8]);
  (1049286643209745200, [0x82b9]);
  (1049393537928635700, [0x5a62]);
  (1049500547034620200, [0x7f55]);
  (1049607670772770000, [0x76cf76de96c1971c]);
  (1049929732242774200, [0x51ed6191]);
  (1050252834300918900, [0x76fc]);
  (1050360767392886500, [0x55835e166b47]);
  (1050576983693335900, [0x64e6]);
  (1050793668501845000, [0x53db]);
  (1051010823853195800, [0x543b]);
  (1051119578621935700, [0x4e384f51]);
  (1051228451795455300, [0x7e967ea4]);
  (1051555784329952200, [0x6216]);
  (1051774602798007600, [0x99d29a79]);
  (1051884191850071200, [0x80c3]);
  (1052213681439756400, [0x532a8712]);
  (1052323752997375000, [0x80f8]);
  (1052544260253206500, [0x5dcd]);
  (1052875935515805800, [0x78b3804a]);
  (1052986738851242000, [0x5439]);
  (1053097665096670500, [0x980c9882]);
  (1054213748110423400, [0x5141573b]);
  (1054326044584885800, [0x6749]);
  (1054663692626546400, [0x8165]);
  (1054776495796996400, [0x6691]);
  (1055115670797108300, [0x6b8b6b987b7e7c3d]);
  (1055228985256825200, [0x62e2650f]);
  (1055456000110279100, [0x572d7e1b7f1a]);
  (1055797491620286000, [0x781678da]);
  (1055911581763865200, [0x5e9f5ee2]);
  (1056025802221742900, [0x79d283bd917191ac]);
  (1056140153291950800, [0x5e1568536eaf]);
  (1056254635273544200, [0x626964f498f2996e]);
  (1056483993172254200, [0x923a94b0]);
  (1056713878330965200, [0x9b54]);
  (1056944293179450200, [0x8986]);
  (1057175240164316500, [0x923494c3]);
  (1057406721749161500, [0x9f9c9f9f]);
  (1057522663791135100, [0x5e105e3370ac]);
  (1057638740414731300, [0x5c3f]);
  (1057871298659078900, [0x6e9c]);
  (1058104398997726400, [0x72fc]);
  (1058221153243330200, [0x5bde]);
  (1058455071478647400, [0x70c1720d7d337ec5]);
  (1058572236108336500, [0x5239524e5c9a5d50]);
  (1059042272226369600, [0x674f]);
  (1059396254896882000, [0x73ba74bd]);
  (1059514528121787000, [0x5026]);
  (1059632941397908600, [0x4f2a507d]);
  (1059870189433271600, [0x745f]);
  (1059989024860209600, [0x563156d16dc0741b]);
  (1060227120210783800, [0x6b49]);
  (1060346380809296100, [0x7d2b8404]);
  (1060465783808556800, [0x5d076241712683ab]);
  (1060705018372418900, [0x6fb3]);
  (1060824850621629700, [0x5a7f809d]);
  (1060944826640820000, [0x7554]);
  (1061064946775383400, [0x8776]);
  (1061185211371959600, [0x9d5d9e45]);
  (1061426175343974900, [0x79b9964b]);
  (1061788713505406500, [0x6d1270517334]);
  (1061909852224036200, [0x558967ab6953]);
  (1062031137866557300, [0x4fa34fb6]);
  (1062152570789797300, [0x60b2]);
  (1062274151351886400, [0x5f2f5f4e938a9551]);
  (1062517756831674600, [0x7c9187f9]);
  (1062761957197229600, [0x5ba3]);
  (1062884281371504000, [0x77b07e9c7f06]);
  (1063006755361093700, [0x84dd85cd]);
  (1063129379533418200, [0x80d6]);
  (1063252154257250300, [0x5319]);
  (1063621385445963200, [0x6d456dfa72068a508bc88eaf8ec0]);
  (1063744766090856000, [0x709c71528a0c8ba78e44]);
  (1063868299151655200, [0x655b6582]);
  (1063991985005394800, [0x7518]);
  (1064239816606841600, [0x71649c589c9f]);
  (1064363963115648000, [0x59a599529976]);
  (1064488263939607800, [0x6b79]);
  (1064612719462828100, [0x536276e7]);
  (1064737330070853000, [0x5c41]);
  (1064987018090711700, [0x5e1877367c3e]);
  (1065237331112523500, [0x7e617ee3]);
  (1065362722978483000, [0x97099ef4]);
  (1065613979392071200, [0x77f678ef]);
  (1065739844732790900, [0x63cf745a]);
  (1065865868694019600, [0x598d99c19a73]);
  (1066118394080739000, [0x4e43]);
  (1066371558772917000, [0x67f4]);
  (1066625366015764000, [0x830e839697ad]);
  (1066879819079263600, [0x54135687]);
  (1067007288822463600, [0x8d088d609d269e2f]);
  (1067390675873535800, [0x901d]);
  (1067518798889140700, [0x5f18]);
  (1067647086270429600, [0x6674817b81a9]);
  (1067775538439665300, [0x62e864a5]);
  (1068032938839182600, [0x6963]);
  (1068291003498531700, [0x97cb97e6]);
  (1068420285998762200, [0x5f138a238bc0]);
  (1068939093906940000, [0x611a8aeb8c0f9685]);
  (1069069217542737000, [0x68e0915a]);
  (1069329973883445300, [0x6c27]);
  (1069460607474850800, [0x60e861586d748343]);
  (1069591411940852400, [0x82c78466]);
  (1069722387729058600, [0x9042]);
  (1070116347529466700, [0x4e73644664fa]);
  (1070248013117941400, [0x5986599d632064937db47f00]);
  (1070644053239551100, [0x88e489328ca28d21]);
  (1071041668077515000, [0x54c0]);
  (1071174558462520400, [0x62cc]);
  (1071975630837128300, [0x67a368d7740f74897b807c2199dd9a7c]);
  (1072378586385728400, [0x5f0a]);
  (1072513266540766400, [0x61c8629179be]);
  (1072648128327895700, [0x602f]);
  (1072783172237682900, [0x69db6abb]);
  (1073053808397457000, [0x64bc7537]);
  (1073733620668839200, [0x5bb0]);
  (1073870139461373300, [0x67c488f3]);
  (1074006844882526600, [0x96489673]);
  (1074280817656638700, [0x608d68696a01]);
  (1074555543104152400, [0x5f90]);
  (1074831025372037000, [0x4f6350ad]);
  (1075245676968221700, [0x75d27662]);
  (1075384277129009500, [0x7901]);
  (1075523069656494400, [0x5349]);
  (1075662055085399700, [0x4fae]);
  (1075801233952682000, [0x8f9c]);
  (1076219936588103600, [0x5353]);
  (1076921693853968300, [0x4ebf510476b176ba]);
  (1077062638204291600, [0x62b57792779e]);
  (1077203781488132400, [0x741074638549]);
  (1077345124267847000, [0x8aed8c15]);
  (1077628410576277500, [0x5269]);
  (1077770355241700200, [0x503e50be640f]);
  (1078054850454923200, [0x4e1160ee619a6cf57750775e8821919c]);
  (1078197402154045300, [0x63a0681668f28339]);
  (1078340157353164000, [0x576a]);
  (1078626280581267000, [0x6c13]);
  (1078769649781452000, [0x944494f8]);
  (1079057006301025200, [0x584c8517]);
  (1079345190938514000, [0x8d64]);
  (1079489595295737400, [0x79ba8cc28d42]);
  (1079634208480737500, [0x8543]);
  (1079924063756138400, [0x6615]);
  (1080069307064170000, [0x6c7d843c]);
  (1080214761635269500, [0x5e7d660a]);
  (1080360428084915900, [0x9913997f]);
  (1080506307031282000, [0x838e]);
  (1080652399095249400, [0x582f5a235c276cfb7009]);
  (1080798704900425400, [0x672780e7]);
  (1080945225073158200, [0x625164b2]);
  (1081091960242553200, [0x80e592ee94d6]);
  (1081386078101634700, [0x668266ab9264931a94a994ee]);
  (1081533462063464800, [0x6c5b]);
  (1081681063566276900, [0x63fd652c]);
  (1081828883253208000, [0x57826da96f80]);
  (1081976921770251500, [0x91d89489]);
  (1082422356805189300, [0x56b766646ea2]);
  (1082571277160336200, [0x7737]);
  (1082720419619003100, [0x589f5bc57a57]);
  (1083019373503839800, [0x88d9]);
  (1083169186265942000, [0x54df55b2]);
  (1083319223803465500, [0x93189524]);
  (1083469486791919000, [0x8151]);
  (1083619975909861000, [0x785578a9]);
  (1083770691838918000, [0x4fed51095bd38305]);
  (1084224207355457300, [0x678b8af18bb3]);
  (1084375837407253600, [0x51f355e36f88707f71e6]);
  (1084527697724972700, [0x6276]);
  (1084679789009043400, [0x903b908f9abc]);
  (1084832111963095400, [0x5a55]);
  (1084984667293979200, [0x5f70]);
  (1085137455711784500, [0x6627]);
  (1085290477929861200, [0x5bb59006]);
  (1085443734664839000, [0x5a49]);
  (1085750954568536000, [0x595174e3]);
  (1085904919187095400, [0x7a917aaf8cc48d3f]);
  (1086213561407414300, [0x6b20]);
  (1086368240479244200, [0x4ed58e0f]);
  (1086678318247069000, [0x845b8fc89081]);
  (1086833718433742400, [0x5440]);
  (1086989360488508200, [0x52be]);
  (1087145245165437400, [0x8a638be38fed]);
  (1087771225300288000, [0x8d0f8d62]);
  (1087928334523492200, [0x4e564ea25b5f8015]);
  (1088243295413781700, [0x4f83]);
  (1088401148643086800, [0x4f1e509873ae744b8ddf]);
  (1089035065187460400, [0x808c]);
  (1089353536794212300, [0x61c2]);
  (1089673025883864300, [0x5a67]);
  (1089833154020561600, [0x6e5b]);
  (1089993538978759000, [0x64ce]);
  (1090154181583586500, [0x51ff947f]);
  (1090476243053590700, [0x5e9a60ac61f87cb18a548bcf]);
  (1090637663589044800, [0x50fb5ed3994b9988]);
  (1090799345111735300, [0x563b62d274707e377f15]);
  (1090961288466965600, [0x8b0a8c0e]);
  (1091123494504152400, [0x7e3b]);
  (1091448698042790000, [0x82ef]);
  (1091774962606271700, [0x96049b2e]);
  (1092102295140768800, [0x4fc4559868a270f77a0d]);
  (1092266364086514800, [0x7a3c89b789d1]);
  (1092430702660887800, [0x65836bd9]);
  (1092595311751554600, [0x63a87252]);
  (1092760192250573000, [0x5f8a6dcb]);
  (1092925345054420200, [0x6f9c703e]);
  (1093588697403983500, [0x4ea8]);
  (1093755225335889700, [0x86a3]);
  (1093922031045959500, [0x5b7d82d3]);
  (1094256479518244200, [0x5e905eec7629]);
  (1094424124150969400, [0x704c]);
  (1094592050302941500, [0x606d621f]);
  (1094760258921240000, [0x6e346ee56feb]);
  (1094928750957731900, [0x5f64]);
  (1095097527369103800, [0x549956a859e8]);
  (1095266589116894600, [0x543576269f3b]);
  (1095435937167528000, [0x62a26436]);
  (1095605572492345700, [0x5a055a6d840c]);
  (1095775496067641600, [0x5495]);
  (1095945708874694800, [0x649290809d3f9e3d]);
  (1096287006134318700, [0x868187fb]);
  (1096458092574681600, [0x6789]);
  (1096801146084360600, [0x75b97d687ed2]);
  (1096973115172313300, [0x85e4]);
  (1097145380503457800, [0x6d5a82b78d758d99]);
  (1097317943100204800, [0x72c872fd8036]);
  (1097490803990266700, [0x62d07b5d7b8f]);
  (1097663964206694400, [0x4ede]);
  (1097837424787915200, [0x9798]);
  (1098011186777769400, [0x54d1555e640164f1]);
  (1098185251225547700, [0x4e4c70cf8af88bf8]);
  (1098359619186030400, [0x4e105378543e665784718525]);
  (1098534291719524500, [0x8b208c23]);
  (1098709269891903300, [0x919a]);
  (1098884554774644900, [0x5121]);
  (1099060147444871300, [0x9631]);
  (1099236048985389200, [0x59ec5c495c5c7afa]);
  (1099412260484729100, [0x96f6]);
  (1099588783037186200, [0x5885985b98a0]);
  (1099942765707698600, [0x540a]);
  (1100833243541994500, [0x615161fe85e9]);
  (1101191666864776000, [0x9f10]);
  (1101371361432446000, [0x73d174cf]);
  (1101551379482860900, [0x62b9]);
  (1101731722182776000, [0x5d4b63b764f268666a3a]);
  (1102274709942213000, [0x867e87668822]);
  (1102456363034852800, [0x59e55ae38adc8c0d]);
  (1102638346706551300, [0x9320952d]);
  (1102820662162702800, [0x7f38]);
  (1103186293283013900, [0x670b]);
  (1103553266171910000, [0x82b8]);
  (1103737258864110900, [0x5de8]);
  (1103921590713539800, [0x8af78bbd]);
  (1104291276901672300, [0x55667436]);
  (1104476633766604700, [0x5cd987478805]);
  (1104662334841326000, [0x519560f68ce48d31]);
  (1104848381406617900, [0x6293]);
  (1105034774750424200, [0x69d0]);
  (1105221516167903700, [0x529d52f8]);
  (1105408606961484900, [0x6d9d6f87]);
  (1105596048440920000, [0x709671c9]);
  (1105783841923340000, [0x68468ca98d29]);
  (1105971988733310400, [0x6f8d]);
  (1106349347671674400, [0x903c]);
  (1106728136003368000, [0x51db51dc]);
  (1106918069583733400, [0x83f1]);
  (1107299022425400100, [0x536f72f87960]);
  (1107490044451012000, [0x97619a379a9a]);
  (1107681432069240500, [0x575e5862917f91c0]);
  (1107873186682167700, [0x8e879b41]);
  (1108065309699957100, [0x5256536781e58a958bde]);
  (1108257802540915500, [0x52df]);
  (1108450666631556000, [0x7fc5]);
  (1108837514309348100, [0x6f13]);
  (1109031500791130800, [0x59be7487]);
  (1109225864311987800, [0x722a8d66]);
  (1109420606340427400, [0x7e82]);
  (1109615728353553600, [0x622e6458]);
  (1109811231837133900, [0x68ad]);
  (1110007118285667200, [0x81b38dcb]);
  (1110794523928757900, [0x57a658be7a3d963f]);
  (1110992347929968500, [0x9ab8]);
  (1111190564050367500, [0x67e97cd9]);
  (1111389173847530500, [0x797779b1]);
  (1111588178888331400, [0x55e6]);
  (1111787580749018000, [0x7b94]);
  (1111987381015285200, [0x54c787ba]);
  (1112388183155039000, [0x59cd59d75a6a9176]);
  (1112589188247841500, [0x4ea65a36607361c7]);
  (1112790598185011600, [0x6deb]);
  (1112992414600635300, [0x6a5872ac]);
  (1113194639138712100, [0x665266ec7b1b]);
  (1113397273453235300, [0x690169e8763e766e8cc88d3e9091]);
  (1113600319208273600, [0x819d]);
  (1114007651747037100, [0x61ff6da46ecc8511]);
  (1114416650272189600, [0x514751f65492795a]);
  (1115033301763756000, [0x68a86ecb]);
  (1115239700185841300, [0x831c914c916f]);
  (1115446525492247000, [0x60eb618a6fa1]);
  (1115653779452444300, [0x51fd5a745b305c3986d9]);
  (1115861463846928300, [0x4f88812f]);
  (1116069580467310700, [0x54d75629851a]);
  (1116487117608358800, [0x624971ac]);
  (1116906405434362300, [0x4fd0]);
  (1117116710454040200, [0x847a]);
  (1117327458687996800, [0x6d78]);
  (1117538652008311000, [0x549a71b983c1]);
  (1117750292298948800, [0x56a356c2]);
  (1117962381455862600, [0x62f17f9e]);
  (1118174921387093900, [0x7a237a4c7cdf7dbb7efd81ed]);
  (1118387914012876500, [0x51896c226c2b]);
  (1118601361265739800, [0x5f1b]);
  (1118815265090614700, [0x53ae5edd919b]);
  (1119029627444939800, [0x631a646f6eb6]);
  (1119244450298768700, [0x7e737f348aa18beb]);
  (1119459735634878900, [0x5c65846398c498d898ea996a]);
  (1119675485448880900, [0x75ea76138335]);
  (1119891701749330400, [0x5ba05bf5]);
  (1120325541909190300, [0x8b2c8c2c8f458f959119]);
  (1120543169851449900, [0x75f4]);
  (1120761272446085900, [0x5d29733e80ba836b852d]);
  (1120979851768084000, [0x574e59da759a8ffd]);
  (1121198909906065700, [0x6b46776c7a837aca827e8fdd90559b1f]);
  (1121418448962409400, [0x5ab376d47a8d7ac5]);
  (1121638471053369600, [0x5f998dc48e4c]);
  (1121858978309201000, [0x711871fe8700]);
  (1122079972874281300, [0x66318475]);
  (1122301456907236500, [0x7abf]);
  (1122523432581067800, [0x53e8]);
  (1122968867616005900, [0x60556da16e2697d397e9]);
  (1123192331396147600, [0x6977]);
  (1123416295655498000, [0x66e66ee46ffe8de8966a]);
  (1123640762640880400, [0x4ed47281]);
  (1123865734614282000, [0x5a209d099e26]);
  (1124091213852990700, [0x5ce870769a4a9a85]);
  (1124317202649734600, [0x53ed565c5695631665a7]);
  (1124543703312819800, [0x62846d4a6fc1970d]);
  (1124770718166273700, [0x56da5c6f7db87eb6]);
  (1125454871347945300, [0x514c51516a0a]);
  (1125913587748636000, [0x77bb]);
  (1126374418057255300, [0x686869f36d95]);
  (1126605632033093400, [0x60df76f29706]);
  (1126837381847129600, [0x7dde7f0e]);
  (1127069669988743600, [0x8f4d8f99]);
  (1127535871299324700, [0x800d]);
  (1128004256230567400, [0x75a1760d796d79c9]);
  (1128239273965062700, [0x53a857ab588a5eda]);
  (1128474845334308600, [0x541754c455ce62ab8e8f8eaa99099977]);
  (1128710972952876500, [0x74419057907a]);
  (1128947659453903200, [0x55e16b7c6bb26d596df7]);
  (1129184907489266200, [0x95d695ef]);
  (1129422719729763000, [0x63d26d516e3e]);
  (1129661098865290600, [0x67ef]);
  (1130379664831378000, [0x55275de660267405746f77a598719885]);
  (1130620338834434500, [0x75ae76219672]);
  (1131103431561401000, [0x6ed46f2a959895f8]);
  (1131345855922551800, [0x690e]);
  (1131588869407881000, [0x5ff1689377db]);
  (1131832474887669100, [0x6995716e]);
  (1132076675253224200, [0x57cb5acc]);
  (1132321473417088200, [0x5992]);
  (1132566872313244800, [0x8693]);
  (1132812874897331100, [0x884591c1]);
  (1133059484146850500, [0x52185289541e5d4c82128872]);
  (1133306703061389300, [0x518084bf]);
  (1133554534662836100, [0x51549be89cb8]);
  (1133802981995602200, [0x80388073]);
  (1134301736146706200, [0x6cbd7e797ece]);
  (1134552049168518000, [0x60b4]);
  (1134802990329060500, [0x57e07a1a96f39742]);
  (1135054562788785400, [0x60da62d978a7]);
  (1135306769732056300, [0x6f84899389c58a988bf1986b98a4]);
  (1136067229670578300, [0x63a9797a]);
  (1136322006878458200, [0x5835809688848956]);
  (1136577434858967800, [0x69a871a0962a]);
  (1136833516945135000, [0x5c94]);
  (1137090256495659800, [0x777f]);
  (1137347656895177100, [0x51d16e4a]);
  (1137605721554526300, [0x66f0]);
  (1137864453911021400, [0x90b8]);
  (1138123857428726000, [0x5de17166795f]);
  (1138383935598731600, [0x8b288c1f9698]);
  (1138644691939439800, [0x8fbd907c]);
  (1138906129996847000, [0x626d93e2947c95239556]);
  (1139168253344834300, [0x51f8]);
  (1139694570349261800, [0x86958836]);
  (1139958771295545700, [0x5ced68fa918b]);
  (1140223672112703400, [0x526a]);
  (1140755588260463300, [0x5be1809895d59619]);
  (1141022611116051200, [0x8d138d43]);
  (1141290348893122800, [0x6d3c7aaa993e998f]);
  (1141827984596760900, [0x5a345afb]);
  (1142097890293677400, [0x751a7f9a8fe99087]);
  (1142368526453451600, [0x54046c2f]);
  (1142639897040611400, [0x5bf065006d3d7b0b7b4d]);
  (1143184857517367800, [0x586b81fb]);
  (1143458455499255200, [0x5e9e6350924094be9f90]);
  (1143732804093830200, [0x852c]);
  (1144007907431019300, [0x680868e77b4f8cc38d41]);
  (1144283769674927200, [0x51dd86508e1e]);
  (1144837787712488700, [0x707870c370f4917597cc97e79c0d9cc5]);
  (1145115952008676500, [0x6e43]);
  (1145394892217434300, [0x60af61ab]);
  (1145674612679540500, [0x714a]);
  (1145955117772301300, [0x54fc80e4920d949d]);
  (1146236411909962900, [0x65f766e0]);
  (1146518499544127000, [0x6f47701f981c988c9ae6]);
  (1146801385164174600, [0x52fe]);
  (1147085073297694700, [0x81ba9c549cdd]);
  (1147369568510917800, [0x56bc598459e3977c]);
  (1147940998637261600, [0x52fa874987ec]);
  (1148227942880056900, [0x4e1954487c27]);
  (1148515712862818500, [0x51a4]);
  (1148804313351732000, [0x675c7741775c836a84c0]);
  (1149093749154368500, [0x5e626dc6]);
  (1149384025120164500, [0x722c87c6]);
  (1149675146140910400, [0x6bcf70e871c17d6e9a629a74]);
  (1150259943129152700, [0x7c7d8760]);
  (1150553629096483700, [0x575f58b398fd9971]);
  (1150848180119459300, [0x6e238403]);
  (1151143601309202500, [0x57ae7d817ed1841d863f]);
  (1151439897822268100, [0x86db]);
  (1152035137674997700, [0x5b5a6248655e8f5f8f70]);
  (1152334091559834300, [0x61d261f677ac943894ce]);
  (1152633941859459900, [0x54c9685575f975fa]);
  (1152934693965855600, [0x532392239499]);
  (1153236353319798000, [0x52c98aa88bf29655965d]);
  (1153538925411451800, [0x54e76dd9]);
  (1153842415780967200, [0x676d7de07f14]);
  (1154146830019090000, [0x5f2763118574860a]);
  (1154452173767779000, [0x8fe6]);
  (1154758452720833600, [0x6da76f977b1984d3]);
  (1155065672624530600, [0x5b7a7682]);
  (1155993036303063600, [0x51625703607a6137780d7a9c7ac4]);
  (1156304078544502700, [0x62ef86aa]);
  (1156616091278127100, [0x6c6a733f773a7d797ee28902935495379be29cb5]);
  (1156929080579020000, [0x60b87fb9918c]);
  (1157243052579486800, [0x707c]);
  (1157558013469776300, [0x7a398235]);
  (1157873969498813200, [0x5fd66f3380f1]);
  (1158190926974941000, [0x6dfc7ddd7f09801888df8df78e7a]);
  (1158508892266679000, [0x4fcf5a765b3860596813781a786f]);
  (1158827871803489100, [0x73578721881f]);
  (1159147872076556100, [0x8b168c21]);
  (1159468899639581000, [0x7e097f19]);
  (1160114063167729800, [0x6309631b65236c50]);
  (1160438212560147000, [0x6e856ffa711a]);
  (1160763416098784600, [0x5760589c68a769bb]);
  (1161089680662266200, [0x561856535a29643a651c85c990ae90f5]);
  (1161745420716882300, [0x566a7ca47cb5]);
  (1162074910306567500, [0x5191533f665466c480c4]);
  (1162405489120017400, [0x829c856a904f9214949e]);
  (1162737164382616800, [0x715c82af]);
  (1163403833518435700, [0x632b]);
  (1163738842206964000, [0x52ff566c6a8073c89d289dbb9e2d9e58]);
  (1164074976977234500, [0x5a1b5a31663c665d82be]);
  (1164412245425098300, [0x5c615c62]);
  (1164750655223522500, [0x552c745990ed]);
  (1165090214123636200, [0x75af760b9d729e4a]);
  (1165430929955797600, [0x821c]);
  (1165772810630676100, [0x7aff]);
  (1166115864140355100, [0x70af76bf]);
  (1166460098559452300, [0x783e792b]);
  (1167152142843909800, [0x79fd7a62]);
  (1167499969281542200, [0x62d764d28006]);
  (1167849009775519000, [0x631d64be6cbc]);
  (1168550767041383800, [0x5254]);
  (1168903501093180700, [0x8a6b8be7]);
  (1169257483763693100, [0x55656c8c71097c9f839e90d1912d]);
  (1169612723924129800, [0x9708]);
  (1169969230540579400, [0x4e984e99543c8338]);
  (1170327012675367800, [0x712f]);
  (1171046440238770500, [0x64106772]);
  (1171408104285789300, [0x53d95f255f4c65587172803f]);
  (1171771081090847300, [0x4f84]);
  (1172135380218697300, [0x63d6]);
  (1172501011339008400, [0x5e1a82cd830484bc90f89132]);
  (1172867984227904600, [0x4e48581158795e1b5e7a88f88efe8f7c901b99ed9a87]);
  (1173236308769534400, [0x676069d37729]);
  (1173605994957666900, [0x6020666673cf]);
  (1173977052897320500, [0x63678d1b8d63]);
  (1174349492806418700, [0x561f60d8]);
  (1174723325017479400, [0x54b35fe16979701a7337]);
  (1175098559979334400, [0x4e597c97978d]);
  (1175475208258882100, [0x563257b85b5c6bb77525]);
  (1175853280542872700, [0x547554805c965d8764b0711671dc]);
  (1176232787639728000, [0x54dd566557d958645f17772f7787789f96cd]);
  (1176613740481394600, [0x57ad57e15ce65dd27c0c94639573]);
  (1176996150125235000, [0x502a515c]);
  (1177380027755951600, [0x4edd595564a46dcc886c896f]);
  (1177765384687550600, [0x6c81]);
  (1178152232365342700, [0x4e155b64661477ee7ca5]);
  (1178540582367982400, [0x552f99ad9a6d]);
  (1178930446409548200, [0x4f5a57d45bdd5be275a4]);
  (1179321836341661700, [0x52d8718f]);
  (1179714764155650600, [0x542d5be5837b]);
  (1180109241984752400, [0x68d86f3e7a96853c85f9]);
  (1180505282106362000, [0x60f9916e]);
  (1180902896944326000, [0x611566f377e2901e]);
  (1181302099071279700, [0x73c082d4]);
  (1181702901211033600, [0x548e786b87e0]);
  (1182105316241006100, [0x848b8523]);
  (1182509357194706600, [0x5ad45b2a7e937f28865e908393df94f2]);
  (1182915037264268100, [0x620e70eb71d97c3895d09617]);
  (1183322369803031600, [0x668486df]);
  (1183731368328184200, [0x6c796d369a019a8b]);
  (1184142046523449600, [0x6572]);
  (1184968497508438800, [0x520e604369b46cb878b0]);
  (1185384298523305300, [0x804b807e]);
  (1185801835664353400, [0x665f8de4]);
  (1186221123490356900, [0x5ba670ec71fc83ba8fe29a659aa59daf]);
  (1186642176743991300, [0x79c67a08]);
  (1187065010354943300, [0x59ca731c849c]);
  (1187489639443088400, [0x569362fc]);
  (1187916079321734300, [0x9edc]);
  (1188344345500934400, [0x6593659572de7370]);
  (1188774453690873400, [0x9dd79e25]);
  (1189206419805325000, [0x6e0d6f2c7693]);
  (1189640259965184800, [0x89259ac59acf]);
  (1190075990502080400, [0x54ee675e75f07766]);
  (1190513627962060300, [0x587e6d8593109525]);
  (1190953189109364100, [0x54af686769846a9c6b1677b38427856d]);
  (1191394690930275900, [0x568f713192ac94d0]);
  (1191838150637062400, [0x5c245c9187c09427950f]);
  (1192731013711492400, [0x51407b0681fe9315951f9774]);
  (1193180452670276500, [0x4f36501a7b3a7b8b8e4b]);
  (1193631920705729100, [0x5e8760bc6e1d]);
  (1194085436222268200, [0x8ced8d4c97dc97ec]);
  (1194541017875854300, [0x55805eb66714]);
  (1194998684578595400, [0x59385d0e5f0872c47fa17fa88a878f128f84]);
  (1195920350089088000, [0x832c]);
  (1196384388044738100, [0x7df27f0880be814e8346834a]);
  (1196850589355319300, [0x6dc7]);
  (1197318974286562000, [0x5958634f749c]);
  (1197789563390303200, [0x61ac92c194dd9aef]);
  (1198262377509897700, [0x63967b037bab7be47c2b92b99508]);
  (1198737437785757500, [0x57777b08]);
  (1199214765661023200, [0x59dc5b957e6d8327]);
  (1199694382887372500, [0x5415544255b75674780c8ce08d54]);
  (1200176311530967500, [0x53795939593e60649c579cde]);
  (1201147192943663600, [0x5cd25e547430]);
  (1201636191473082800, [0x548f58806caa6dd16eec8a60]);
  (1202127592953325700, [0x618e776b90939127]);
  (1202621421117383900, [0x9a2b9a9e]);
  (1203117700051596700, [0x56ea56f157a26c93889c896a8dbe947d94bb]);
  (1203616454202700800, [0x6db870bd71be]);
  (1204117708385055000, [0x6c5d6e176ef2]);
  (1204621487788050900, [0x990c9975]);
  (1205127817983705500, [0x5f7c]);
  (1205636724934452700, [0x90c5932e9522]);
  (1206148235001129600, [0x6c407dbd7ef08ecb8f67]);
  (1206662374951171700, [0x766b767277e37ad68c4e8eac]);
  (1207179171967016000, [0x5ffe613e67ff78f77b77]);
  (1207698653654726200, [0x4f4352aa7686]);
  (1208220848052841300, [0x4e534fd15b37607f]);
  (1208745783641455800, [0x5993]);
  (1209273489351540200, [0x623e86fe958295e998179887]);
  (1209803994574509500, [0x60ed615a642d65186e146f0198e29965]);
  (1210337329172045700, [0x631f633e6e0e70067b608146]);
  (1210873523486184300, [0x54ac58d56c7e9d619e49]);
  (1211412608349672000, [0x5576]);
  (1212499575573362300, [0x4f3d55016ee270057b508d058d588e1d96f99753975a]);
  (1213047522149824800, [0x6cde6fd8]);
  (1213598487730921800, [0x4f6c5d585db867957481870d9c329ccc]);
  (1214152505768483300, [0x5cb192f09502]);
  (1214709610273428800, [0x53215de962ed87828ae68c1b916a9293943294e8956f978f]);
  (1215269835828295800, [0x5ce45da0724d725890ba9134]);
  (1215833217600121500, [0x6cd36f096f5885d3861a]);
  (1216399791353689300, [0x5960]);
  (1216969593465153000, [0x5a755b0b6c2e914b]);
  (1217542660936051400, [0x642c74a7]);
  (1218119031407726500, [0x5685664f732977fd784578fa7bd37c077c0d9e1e9e3e]);
  (1218698743176159000, [0x560e63876c8273c274229b139b22]);
  (1219281835207238500, [0x543654505773]);
  (1219868347152478300, [0x69886ada6e2d]);
  (1220458319365197000, [0x50f158d1699478d096c7]);
  (1221051792917178400, [0x6d526ef872b773777aa67ac78859]);
  (1221648809615828800, [0x66dc757f7b207f8c]);
  (1222249412021850100, [0x4e1e663566b16df9762b76717d1c7ead89a689ce9215924994ae94c9]);
  (1222853643467446400, [0x5c4e7c3f7f618559]);
  (1223461548075084500, [0x5cea67008d5f93ac9550]);
  (1224073170776828200, [0x4f94657766f995a1960299b49a6f]);
  (1224688557334266000, [0x51a57a208af38b178c198c24]);
  (1225930809334121600, [0x516e522e600560b57095715e8dea9edd]);
  (1227188687554807700, [0x51bd70d870fd84b29d9a9e57]);
  (1227823610322673500, [0x634664796aac8a418b5a8bc28c2d9a5b9a7f]);
  (1228462590132550700, [0x51af60f07fe993d895359943998d99ae]);
  (1229105679165579800, [0x59626a316afb6f626fe08237]);
  (1229752930616141500, [0x5bc489b289d0]);
  (1230404398718260800, [0x55b36b6a7e467f2a978599129981]);
  (1231060138772876700, [0x775177bc79f87e0a7f22]);
  (1231720207176012000, [0x576f773879bf79c38431]);
  (1232384661447878700, [0x53846b3a75eb764779487fca8f4e8f7f]);
  (1233053560262958500, [0x51f954625ce55d22620d67f5680583178b0e8c1c9dfa9e6d]);
  (1233726963481092800, [0x592f8b018c129328951a961c9a449aa2]);
  (1234404932179630700, [0x5fa86897793496c9]);
  (1235087528686670700, [0x68d578c57d0a]);
  (1235774816615446900, [0x69cc7f817f88]);
  (1236466860899904300, [0x53105587742e92c5950c]);
  (1237163727831513600, [0x62c26b936bae]);
  (1237865485097378300, [0x525d5265557c57a9580a5a3c6f7c732c75bd783a792a]);
  (1238572201819687600, [0x6bb46bc66e3a81fc82df]);
  (1239283948596574000, [0x65a965ac73e992a894f5]);
  (1240000797544435200, [0x76c2]);
  (1240722822341783900, [0x6b8374a874e2760178cb7caa7cde8dda928394f3]);
  (1241450098274691900, [0x709475b8762085139afb]);
  (1242182702283899200, [0x5f297dbe7eeb8757972d974498bc98d5]);
  (1242920713013661400, [0x65126522680e6adf7a1e7fce9150]);
  (1243664210862413300, [0x693f6a716ae5749e7fd87ff9]);
  (1244413278035329000, [0x6405652a71ee9ce99e20]);
  (1245167998598867200, [0x736d737a7428891b89388b108c27]);
  (1245928458537389200, [0x4f60507b50c261d161e363ed648782cc83938407888588ca]);
  (1246694745811946200, [0x5b6264de64fb795797f6]);
  (1247466950421337200, [0x5511579b6d536fc3873496bd96cb]);
  (1248245164465542700, [0x56d476c58713]);
  (1249029482211645200, [0x4ecd54b8]);
  (1249820000162356600, [0x557771ce7ade7af6980a987c]);
  (1250616817127274200, [0x54a75dc55dd461a96dc479418a618be9917098ed996c]);
  (1251420034297000700, [0x54aa610961e66c88]);
  (1252229755320262700, [0x517c549b568062d6840e92ae9382947e9541]);
  (1253046086384178700, [0x50bb7275727d75ff82f9]);
  (1253869136297830300, [0x606c60bb68f169df6ab379807bf17c6c7c958892]);
  (1254699016579299800, [0x53985555]);
  (1256379728410937900, [0x672d6c7682aa984e989a]);
  (1257230797377728800, [0x556c55c762d86dde7b28837c9017]);
  (1258089171746868000, [0x6bd36f3173ab]);
  (1258954978021179400, [0x556a66ae74ef750c]);
  (1259828346018054800, [0x504e7d077ea5826e852188f09041]);
  (1260709408986270400, [0x53fd56306c5574d274da760085dc9f669f88]);
  (1261598303727995000, [0x4ec3568e5ccb62c6674867af777d9026909096cf96db]);
  (1262495170726271000, [0x5c906096694269ad7d8f7dac7ee57ef69ed4]);
  (1263400154278262700, [0x5506556755d25616564e6be16c0877088a158baa8e6d91e39493]);
  (1264313402634590000, [0x5636606a8e6c91c9991e996f]);
  (1265235068145082500, [0x5250526e54208ac98bff8caf8d2e8df88e55]);
  (1266165307411313800, [0x645e98e99968]);
  (1267104281446297700, [0x6a476eba6f027f3d88a4900594b5]);
  (1268052155841752000, [0x6006613468547a988eba9b45]);
  (1269009100943367000, [0x55d65e275e405f0b87fe8b07925e94ba]);
  (1269975292034540900, [0x4e2b4f57714e7699]);
  (1270950909529077300, [0x5431646767776d93789b78e7]);
  (1271936139173378400, [0x592d]);
  (1272931172258695300, [0x811381bf82f786ce88239f959f9b]);
  (1273936205844045400, [0x60297a797ce0813e8910]);
  (1274951442990447200, [0x5e445fb5660069866ca66dea794e79957c2a827082718adb8c00947094a5]);
  (1275977093007166000, [0x57a06d3572f2733b7bea822b86a487d2929694e2]);
  (1277013371710720700, [0x539556645ec1683d7d9c7efc93479534]);
  (1278060501697450300, [0x59dd6e4e81ca8efc8f468f768f98]);
  (1279118712630504000, [0x55ea5f955fa0728079e483e18a258bb78ce18d5392f8952f]);
  (1280188241542178900, [0x50f55deb68c26afa7f947fc0817183548b148c11]);
  (1281269333152600400, [0x636364176c697d467eca90959ee0]);
  (1282362240205819300, [0x5f5d612367ec72ef736a795c7b958a079edb]);
  (1283467223824477800, [0x4f765a065b0864ae6fc275d875de7d407ecc835f8588970f9f6a9f8a]);
  (1284584553884290300, [0x53c85b9360f479e7968d9df29e6b]);
  (1285714509409683800, [0x63ac76f977688c828e359075]);
  (1286857378992046000, [0x591465566c286cb180bd9149]);
  (1288013461232153600, [0x54716f8e785d7bd9874e880d923f94bf959495f598af98d29d899e51]);
  (1289183065208472800, [0x5a325aa75ad25b21641365ce7092814b]);
  (1290366510973173000, [0x599e5cb76f7a701b710a728a72a277fe792c7bc689138afa8c1a8d8495a995fd]);
  (1291564130077844700, [0x56f5570767ad689f75b5986598a29d079e28]);
  (1292776266131079000, [0x817488c6893689609a559a84]);
  (1294003275390260500, [0x54555614655d68b36e1a701173c9745581c684ff8a858bdb973e9f3e]);
  (1295245527390116200, [0x54b25f6d746d75e388829419956b]);
  (1296503405610802200, [0x5c60600f7c417c5f8fab8fae9088936c9539]);
  (1297777308188545200, [0x541d606270ab859b88d88cc18d329811987d9a649aa79e92]);
  (1299067648672136000, [0x5a1160fa62f46de6708a9163925b94c599a5]);
  (1300374856828871200, [0x50ee5b09641e7663766c77a977da]);
  (1301699379503873300, [0x4f3a4fea513754645d345fd1620c64e269b76c857691769a7aa57aba82de868a86b18cc58d459776]);
  (1303041681537087400, [0x565456696860690f6d8e6ed58efb8f72]);
  (1304402246742665200, [0x55dd5e3c5e5763e3704f705d742c7b1e7e4782a588818983]);
  (1305781578955898900, [0x64216cd772e99911997d]);
  (1307180203153372800, [0x50a5513b5ae65df3631e632a64bb64c2677575b176b0814882068eb28f3f]);
  (1308598666652568500, [0x6a597b75801c8e228fe495ad95fe9765976898c698d9]);
  (1310037540397778400, [0x52405274528854d256605bd0601487859062958f95c895f095f1]);
  (1311497420339893700, [0x57da581d5941596963326b866ba16baf6d2e739174a3771978a385d5943a94db995e998b9c7a9ca1]);
  (1312978928918407800, [0x500c508d574263a36c5e6c908299835a83a28b4f8ba593419528]);
  (1314482716654861800, [0x61cb6c076c0c6f4175b27d097eab8b058bcc988d99219985]);
  (1316009463867940700, [0x56e16636730a768e819181cf93b59553982498909a419a9c]);
  (1317559882521537200, [0x542e60426ca76ec473968ae48c1491ba9b439be49cb2]);
  (1319134718218351100, [0x4ec4533e53a96c326c33816e8b4e8c32923e94c0964796b496ce9a4d9a81]);
  (1320734752352995200, [0x5549557b57c2637a6a3575e7762a765f7bd17c23811081cd82ae86168617]);
  (1322360804440173300, [0x52d652d75a0c63c6777e844693f594e79713]);
  (1324013734635294300, [0x52f062336ca5701d86ed8e708e9593de946094c4955b9b479b58]);
  (1325694446466932400, [0x4ff853df558f62e363c06a3e71947cdc9257934d94b395409c779cc4]);
  (1327403889802862500, [0x4fac51025996612b63c48438]);
  (1329143064074049400, [0x501c502d50f35f2d5f89725f72ed72f977857dba7eee94109563]);
  (1330913021783989500, [0x55f759a46c5c7a147e107ec98364847787e58a108ba6970e98da]);
  (1332714872334257300, [0x51a2585a7e5a7f2d8cb68d2c91659c3b9cd79e1d9e42]);
  (1334549786201077000, [0x4ea54f0e6229622c71e772b9733673de79e37a957d3a7ec08069807582a982d2853b88f18ac48c069997]);
  (1336418999502292200, [0x59445e6166a86715672667da68e36d19731d737e78ec830f862288e289339b03]);
  (1338323818999361600, [0x5ee95eea5f016078615f6f5e7ae396499658]);
  (1340265627585071900, [0x520d60357301754b7b8d82bb887d8d07982198899903997a9b749c82]);
  (1342245890314689800, [0x4fde52ad534555d4688f6c266d31789c78e37b5b7be98093828d933395309e1b9e73]);
  (1344266161046441800, [0x55e55b406dd6772c77d386d09c499cd6]);
  (1346328089766715200, [0x4e5e4eb54f5e4fa6507554e65c795fea6c4a7184765679e985b08788893b91ec948e964c9da99e5c]);
  (1348433430686498500, [0x531d545c55da71f9729f808b891a91e992269492949b992e]);
  (1350584051208595000, [0x558659aa5ad75ba55fd26dae7fbf80b18707879f9d609e44]);
  (1352781941880472300, [0x506c50af545b55c65a13609d7578765c80db81168238907d9bc99ca4]);
  (1355029227465678300, [0x4f7b6217622769c16cbe719277dc782d83678f268f648f738f87]);
  (1357328179288148100, [0x510b6e9f7fe6846986b48d048d3d90b1947295769f2c]);
  (1359681229029167500, [0x51c75c505edb696b6d5c7bfe7f44983998939a169a9b9f6c9f89]);
  (1362090984187073600, [0x54da5db769786cfe6d876d9f6de46ed36f2379497b937c5982e384738a168bab98fc99729dbf9e5a]);
  (1364560245446110700, [0x4f6550c963286fde7a427ba97c6e808786718717876887788f058f618f828f94994899909a0f9a909dc29e5e]);
  (1367092026244539800, [0x609a65ef66776829684069896af8711973a57b6e831b85b988f48ae28be891e7948f]);
  (1369689574884865700, [0x502c5704584b594259505a045a415cc15d825e1462ac64c57080716c7cbc7cfe7ea083148b2b8c2a92c794a1]);
  (1372356399593081900, [0x5220522a54fa629262da7425766f787c7e887f2c828a8537859486c48cfa8d5a8d739210923894a494b9]);
  (1375096297011893400, [0x556e56d359b25ac9608c6a1f6a97745774f47d627eda91ae92c6958e95d495f3961697d997ea9bca9ca8]);
  (1377913384708563000, [0x558255be56b35a09607b60fb63cd655575e278b4803d868c8912901693d794ff9935]);
  (1380812138395888200, [0x5ffb66b96ee670647085723b75c27bcc82cb83a78548861186e486fb871589de89f48a368a528bc38bd28eeb8f7890dd; 0x93b3954d]);
  (1383797434710856300, [0x603f61cc763f766d77eb77ef78f27b717fdf8118828e886993c3955e994999919a2d9a98]);
  (1386874600577531800, [0x62bf64d8695e6cf16d546f6f72d278a17d737edb95e19610]);
  (1390049470408989800, [0x4e524e694f254f7c500059ab5aaf642a64546ca3704373fa83df8d81942e95709a6a9a8a]);
  (1393328452691288900, [0x55e469246b0f6dd8729673e580dd829082c4836683a083ea853a85fa876388158a708acd8bd88be48c498c788caa8d2a; 0x9251929194c294e39df49e47]);
  (1396718607858857000, [0x4ff15523581e5d2e69396bf96fa773bb77aa7f307fcc801980bc816d867b8cfe8d5c8e4a8e6093d1955d97c1]);
  (1400227739839984000, [0x4fc14fe3554a55a7588961a8632363996fd1702872b473f2743f749f75b47d137d837e1f7ebe7ee17f1b7ff380378360; 0x85ba8a9a8bee987098a69d309de59e369e39]);
  (1403864504257071400, [0x4f9750d6541254a454d9557e56725981610e6308659b67d169ff6fd2701575a076587fb67fe181bb82db8424856487a2; 0x90b99112927b936a944c94ec955495cb961597a097de97eb9b499b4e]);
  (1407638537055356100, [0x5676586c5abe5ea566d96a2f6aa36c1f6e4474ee7515761f7e08809b80da818882d58426845684e385778a1b8bb99050; 0x9701973d]);
  (1411560608370684400, [0x51aa5e4270e971f4778e7d5e7ede8340837d852b86f387849826988f994c9994]);
  (1415642807822709800, [0x4fa951085d6c607961e8629f64766b8d6c056faa75667d758228839885ab95a895fa98f499749b8e9c879d989dd99e37; 0x9e55]);
  (1419898769264589300, [0x4f705364545356c856ff5d035d0d5d3d5e966ce06d946e4d753a759f76277b4c7db07efe82e186f0872287c48dce8df9; 0x8e858e9a90b5935b953b96bc9e75]);
  (1424343945521672900, [0x4edf4f9153ee55335783620a75cd782378d986a786c98ab08c01969797e1]);
  (1428995947085162000, [0x53c154bb572f578458df5dfd610663c965e26dc578378605900d9376938f93e4953695429b48]);
  (1433874963502105300, [0x537a5429603c61df69a76b876ba46ec771b5739f75a375ac7667782778307a517a617ff18298881688fe906e926c937e; 0x94bc953a962e9a3e9aa19b919c8d9d939e4b]);
  (1439004292940860300, [0x51c452015d275e915ee164b764f7677c69306cef6dd27321738073d9747774a675e876467b907be57cc57ffe84a884c1; 0x919093a293a794a894e09814]);
  (1444411015067888000, [0x4fce53e65c825cab5e11664167e06845695d69666ab86d2b6edf70697618763a781c7b337da37efb8046841c8478870a; 0x8af68c0c8c488f258f8a9122939893dc943395499557956d96f2975b9bab9c9b9ee2]);
  (1450126856451882800, [0x53fb5729576858f95b055d1b5d2d5d8461266192659f65d6671069ce6b696d476d4f6f86700f709970d9725672b87341; 0x74a9752977bf7e437ef7836d8452860b87538ab98b5e8bfd8f1f8f338f8d8f8f916293f9956a981298819c529c789c88; 0x9cdf]);
  (1456189318633526300, [0x4faa51155892595a59eb65fb6d5e6d606de56e0c70f97230752c7d5d7ed48132825f85ae85ea874887c88e6690e69148; 0x91d5948c980f986c988398a59a2e9a9d9ea99eb89ef99f729f8b]);
  (1462643170747283400, [0x4e4d4f275096535e577b5e195e5b5f8c6753688669e06a8e6ae76c7275d4830984df857b858a866286cf86f987f68a5b; 0x8bc58c418d678fe590e2931b951b9807987899f19a86]);
  (1469542457895978600, [0x4fc553e953f1560f59a35aaa5abc5b845ea0617763e967a5699b6aea6c7475b3776278267c987f58845a85b78cd18d48; 0x8e3d]);
  (1476953255111350700, [0x4f5f575c58e25bee607d60f2637b6402645f653869ca6a7c6ade6e6b6fef731775047bc1834f840184e0863a872587ad; 0x895e8e7c8f0a8f7e915e924592a693b0949c94df9552965f9def9e699ecd9f349f39]);
  (1484957525878704300, [0x4f644fe65114519752d054e955b155d15e375e4c66be6b246b5f6bc26d276d486da36e196e5e70b770ca72f373e374e4; 0x7c9d7cf27fe57fee8497858f8654869c86c0872e87ac8c898f4295be9608989999df9a779b929be79c8b9cb3]);
  (1493658663577667400, [0x545654d35544556d55b9563556a656c057935b346092609b625265bc65f56e246e2573ee744476ef80428076827f8283; 0x83d88451866c866f86b687a887ce880a8a798e058f1e8f8b90a2923994cd95cc961197af97c9]);
  (1503189681558099800, [0x559158035a085a9e5b4c5cbd61b761f562a1638466456849693469876a286a796ad36aec6f78727e7352748e74d47be6; 0x7d027ea3800b81c082228a6e8ad18add8be08bfc8c1e8c8592df92ef9506951395e595fc980e988098ba98cf98e89957; 0x9a439aa09bfd9cab9d1b9e33]);
  (1513725733123882500, [0x4eb3524c52a252f153e1550f5739580758d9599859a959d85af55b175b24604d611b62fd6369669068b56b926b9e6cfa; 0x6ece6ffc7086716871e0726176407784791e7a037a887b047b8e7d317e1e7ec27f1f7fa37fa9805281e7823b826b827d; 0x82fe836583c08553857088608cb38cbd8cda8d308d3b8d498ecd916992039498968b97119832988b99d99a789ae19bc1; 0x9ca09cf69e229f949f9a]);
  (1525504036689520900, [0x4e9c4f09501e502e518651b45228545755045564559f5924597c59f95bf65c0b5c8a5ed16221636163f664bf679e67a8; 0x6804683368d669546a056b9a6bab6bd76c946e5f71137156782578987a067a807bb47f4581ec821b830183e083eb8488; 0x863888e589498a228a8c8aa08b9e8c338e8d901190c792e495049c319c679ca29ce29ebf9efd9efe9f549f80]);
  (1538857175951973100, [0x4fda4fef562456b6574d581558ae5ada5b535c985cf45d1462bd65c3680c6ae86d6373ea754875837678783b78937931; 0x796780ab8153816981a68200840f841884e588398a6d8ae18be18c258e9e903e90a1914a9200923793a394af94b496a7; 0x96b99bad9bdb9c289c489c919cb79cce9cd5]);
  (1554272243934698800, [0x4fdf52bc542354cf5588584d5af15b195b5b5fcf60cb61fa6273638f648265f8669866cc6ceb752d760c772577267dd7; 0x7e987f037f3582c184ef88038aa38aa58afc8bec8bf08c168c188e47900b92bb933e937093e89511953e95bb960e9aeb; 0x9b839c869e82]);
  (1572504399614094300, [0x4f6f4ffa500f526154a855d35c635eff5f6761a762ce63b065d2662867b067d867e267fd6a896bfd6cee6d0c6d0e6d33; 0x6d396e8f6f366fe171b373a27634789a78d47a707cb37cef7d327dd87dec7ec17f047f05804380f0835c83aa83fd84a1; 0x84fd8568859c877b87af89eb8aee8f3b8f90928e937a93ca941394799517956695699c299c3e9cd09cd4]);
  (1594818754745515400, [0x539d547754ad5520553755995600562e565956e4579a5e3b5e585f225fdd605a642666096809683e686469ab69bf6adb; 0x6b126b596cad6d9e6dec6df66fc9723f732573e7749874a0756c757277d7791379d57aac7b2e7c747cf47d067ea17f54; 0x8031804d8079807f811481e08351835b835e83a883d48476854e855886d186f888a2897b8d0d8d618e0990fe910491aa; 0x926694b295d395ff96cc9993]);
  (1623586961990693600, [0x4ee84ff35043504851fc536354a354ea5514567b57a75ca25cc45da75ebe5ed660ab60c760e6612861cd61d462e7646d; 0x64f065ab65cc6634663a665e67b7690b693d6b376c396e326fb66fee71737228738e73c574ff7707784c785278567864; 0x78be7aa07ae67b0f7cb27dc47df97ef27f07809f8112812981988202829182a182a882eb8306845c84bd85a88653867c; 0x867f8806887f891989bf89cc8cb28d408deb8f548f9a90e7911691f992a593019365949594f1951e953295ac9606960b; 0x96e99792995599f89a8e9b299bd79c9e9e879f609f86]);
  (1664133472801510000, [0x4e474e5c4e8d4e9f4eb64f374fe8504c50ac513c515552cd536e540655df562757cf57d257d5580b58ec599759d25ac4; 0x5d5d5d815f585fe45fed6002601b616b634c6400641c643d6441651965c66603667e676a677367d2680a687768f068f9; 0x69986a3d6a916af36b846bd66c846cd06dab6e866ea76ec26f4b6f906fec7023703270a471da72877392741a74247440; 0x74d87511751976a477477812784e79b37afd7b2a7bfc7d9d7de17e6f7f177f3380d7824b82f4832d8347838583b6840b; 0x846d849e8556859f862986a986b08709876588fc8ad78b9c8c028c208dba8e518e768ea18fc48fe890529097909b90d7; 0x90f4922e924d92bc9338943e94cb94cc94fc950996219773978098e399549964998099959b239b329d529dda9e469e68; 0x9f17]);
  (1733448190857504300, [0x4e424f034f2b4f324f474f7a50055072508850e15101510651565157518f51bc51ca5208522d524452ac5304532e5331; 0x538d53995416549d54b154cc552a555655ec55f5562d565d566256cf5709571c572a578c57955844596d598a59ee5a68; 0x5ab85b655b6e5bac5c7e5c995cb55cbf5d115d1f5d475d6b5db45dcb5def5df05ed95f075f4a5f61605d60a8614a62f6; 0x633d634564206485649565696607661a6630664a6659668c669566c867d96800689468ea69f16a186a616a656a816a84; 0x6aa96aeb6bb36bcb6c306c9a6d3a6d4d6d5b6d6f6daa6e496e666ea66eb16ecf6f8c6fae6fdb70937155715a7178719c; 0x71a871ca7214726e728d736c7393739573ad73d673dd73f073f97407742f74327462747174807486748874ab74c574ce; 0x74db74e07551755b756f7594759d75c3769b7706773577557800784f788778ad799b79a579c87a177a787b477b707ba7; 0x7bcb7be17c7c7d1e7dcb7de67e527eae7eef7f0c7f217f2f7f5f7faf80128026809c8248828f82c882ca82e083b383bc; 0x83cf83d683e583f98461849484f4857285f68604868b874c877d878b887e8886889b89188935896689888a388a5d8a8a; 0x8b048c558c688cba8d368db18db28dd68dde8e158e298e928f628f798fc28ff59058905b909990a490b090b490c390dc; 0x9143914691d491dc91f7920492079230927892ab92c89306931f93219329933193d0942b9487948d94ad94c894ef94f0; 0x95169518951c9520952c954c95609572958695eb966196a896b096d29719983798529857988e989498e598ff99669973; 0x99d89a049a809b3b9b519bd69cad9d159d429df89e1a9e359e3a9e669e6c9f91])
].

(** prob_emit.go:14310-20720 loadDefEmit, state M *)
Definition emit_M : list (Z * list Z) := [
  (383658638317026270, [0x6c11]);
  (384593626859203440, [0x5927]);
  (412462500647251850, [0x56fd570b]);
  (437413489255979100, [0x4eba]);
  (442815852643591300, [0x4e00]);
  (443975954260444800, [0x4e0d]);
  (463673911122106400, [0x4ee3]);
  (466925839267138100, [0x653f]);
  (473745622021727100, [0x5b89]);
  (478233844158278300, [0x4e3b]);
  (481320203353169400, [0x8868]);
  (485245096976016400, [0x545854e1]);
  (487875237898054400, [0x5b665b78]);
  (489824617366154600, [0x59d4]);
  (494619935384222500, [0x5341]);
  (497452221804228700, [0x6cbb]);
  (498791834951616050, [0x516c]);
  (498856976742376800, [0x4ea77522]);
  (503585180992669100, [0x4f1a6703]);
  (505719034814733700, [0x5bb6]);
  (508005317110278300, [0x65b9]);
  (508717294227873100, [0x52a152d9]);
  (509518528308856500, [0x5c0f]);
  (525319416715668800, [0x4e2d]);
  (527649710709541300, [0x534e83ef]);
  (536382710276108700, [0x5317]);
  (536771988764292100, [0x4e8c]);
  (538092048121521050, [0x5c14723e]);
  (539140029808555500, [0x6c496f22]);
  (541128280529773400, [0x5171]);
  (542345032942055000, [0x6587]);
  (547635825987380800, [0x4e09]);
  (547848314928803500, [0x65af]);
  (550815003024186640, [0x5e38]);
  (553908847256354600, [0x548c]);
  (556131447639882100, [0x52a852d5]);
  (560765702344518800, [0x5229]);
  (561404081546580800, [0x4e4b]);
  (561987265483300600, [0x5b50]);
  (562228625127246600, [0x90e8]);
  (570496020885264300, [0x7406]);
  (570711398956891400, [0x958095e8]);
  (571895614760902100, [0x767e]);
  (571961089784520600, [0x751f]);
  (572000395386074800, [0x4e1a696d]);
  (572092168581634300, [0x62c9]);
  (572262828288298900, [0x6d77]);
  (573776437486512950, [0x5c71]);
  (574517280791016650, [0x591a]);
  (579405480571742900, [0x5343]);
  (582132965717544200, [0x514b]);
  (582287771998762600, [0x4e16]);
  (582437969463952200, [0x81ea]);
  (582773092048651200, [0x897f]);
  (583251001862972800, [0x4e8b]);
  (584046059054549300, [0x5bdf]);
  (585081208586520600, [0x4f5c]);
  (585966325003869400, [0x5efa]);
  (586500169946161000, [0x884c]);
  (587852503722685500, [0x6c34]);
  (588370812429269650, [0x5408]);
  (590308585730451400, [0x65e07121]);
  (592767356011719750, [0x5929]);
  (592821133910300100, [0x5e73]);
  (593074278149110800, [0x5316]);
  (593117430423365800, [0x5357]);
  (593414607462281600, [0x672c]);
  (594158711050413900, [0x9ad8]);
  (594864461169072600, [0x4eac]);
  (594957839550524800, [0x6c5f]);
  (596447140433772700, [0x6cd5]);
  (597152433029961400, [0x6709]);
  (602145265456661900, [0x7d937ecf]);
  (602470565166854200, [0x7f8e]);
  (602755330428105400, [0x5730]);
  (604131197080351000, [0x8a00]);
  (604197476117513500, [0x4f866765]);
  (605337089590600500, [0x5de5]);
  (605587356774484700, [0x6cfd6fa4]);
  (608615259016767000, [0x91d1]);
  (611076961030213200, [0x56db]);
  (611212641878035100, [0x665366c9]);
  (611348507068928200, [0x957f]);
  (611562383167177100, [0x88e191cc]);
  (611718217235463900, [0x5143]);
  (611893821325986300, [0x592a]);
  (613204284320224200, [0x4ea4]);
  (613779739822310400, [0x7136]);
  (613786373541507500, [0x519b8ecd]);
  (613846096825408900, [0x7f577f85]);
  (613992237412066700, [0x4e07842c]);
  (614405240930110900, [0x5fb7]);
  (614572258372148600, [0x9633967d]);
  (614947392788494000, [0x7269]);
  (615810164384603600, [0x6210]);
  (616762422974778900, [0x53ef]);
  (617779054893295850, [0x4e94]);
  (619625604242211650, [0x79d1]);
  (619787490605210300, [0x592e]);
  (620892474223868800, [0x4ec0]);
  (621056426215543300, [0x62186230]);
  (621120654585280300, [0x4e6666f8]);
  (621385138816800350, [0x660e]);
  (621901824573373200, [0x5fd7]);
  (622725409636059400, [0x516b]);
  (622921466773253100, [0x9645969b]);
  (623863526539097800, [0x5206]);
  (624341591657296100, [0x65b0]);
  (625386548733085400, [0x57ce]);
  (626277039894572700, [0x653e]);
  (626472661053938600, [0x6d4e6fdf]);
  (627160364501079100, [0x6797]);
  (627509802717485200, [0x800c]);
  (627799392921390500, [0x53d1767c]);
  (629252314663207800, [0x5f97]);
  (629384041465409900, [0x4e0b]);
  (630131184796238100, [0x5fc3]);
  (630475500028020100, [0x8cc78d44]);
  (630483339168854200, [0x601d]);
  (630718799602575300, [0x7279]);
  (633209083030254300, [0x4e9a4e9e]);
  (633249371496211600, [0x5c3c]);
  (634253753825777700, [0x65f66642]);
  (635243658420005450, [0x5bfc5c0e]);
  (635317680712319000, [0x753596fb]);
  (637724225094862600, [0x6240]);
  (638851498972114900, [0x53e3]);
  (639578650471583900, [0x5dde]);
  (639595823750004900, [0x5e7f5ee3]);
  (639853777461398100, [0x4e1c6771]);
  (639931293506793700, [0x5982]);
  (640233317294215300, [0x9769]);
  (640640332361407200, [0x52a0]);
  (641345695150077600, [0x7389]);
  (642056068670141800, [0x4e2a500b]);
  (642674063044511100, [0x7dad7ef4]);
  (643269170720803500, [0x8f448f96]);
  (643429655776646200, [0x533a5340]);
  (643518925555829400, [0x7acb]);
  (643706651888169300, [0x5e74]);
  (644497169838880600, [0x65e5]);
  (647788478518174400, [0x6559]);
  (648199425206524300, [0x7d057ea2]);
  (648894394194490100, [0x99ac9a6c]);
  (649234241590401150, [0x6c38]);
  (649556272556330150, [0x7cfb]);
  (650346790507041500, [0x65cf]);
  (650586128135052100, [0x660c]);
  (651297943376038900, [0x673a6a5f]);
  (651365540307780800, [0x8fd0904b]);
  (652746750865977900, [0x4f2f]);
  (653149126402735300, [0x6625]);
  (653533382257576200, [0x9636968e]);
  (653731010780397350, [0x516d]);
  (654167173248218500, [0x4e3d9e97]);
  (654945076841882700, [0x4e506a02]);
  (655809838389712200, [0x6280]);
  (655971552595158600, [0x4e03]);
  (656174063802480700, [0x5934982d]);
  (657018895536106100, [0x5b97]);
  (657469669785729100, [0x7a76]);
  (657716405800695000, [0x529b]);
  (658015359685531600, [0x540c]);
  (658160002752386200, [0x5e03]);
  (660217838986786400, [0x53e4]);
  (660302307368960000, [0x5176]);
  (660460878151169200, [0x7531]);
  (660853097872723800, [0x4f599918]);
  (662491513277779300, [0x5170862d]);
  (662924320705183940, [0x672f8853]);
  (663043671883025500, [0x4e3a70ba]);
  (664047499188482500, [0x4e5d]);
  (664553217064886150, [0x8a088ba1]);
  (665050428188106400, [0x754c]);
  (665283308803474800, [0x901a]);
  (665538992340021200, [0x767d]);
  (666108285611665200, [0x534a]);
  (666265130815228400, [0x683c]);
  (669316021963811600, [0x5b9e5be6]);
  (670947569634153000, [0x6b63]);
  (671501326572041000, [0x9762]);
  (672177044868319400, [0x5b9a]);
  (672224635589027200, [0x4f539ad4]);
  (672857360197358900, [0x6c146c23]);
  (673421824555646000, [0x4e497fa9]);
  (674329216904564300, [0x6b66]);
  (675085594793897000, [0x5f00958b]);
  (675318537950784850, [0x9053]);
  (675465940016535300, [0x5149]);
  (676640605764547850, [0x4e9196f2]);
  (677264438105817050, [0x7bc48303]);
  (677716019405085500, [0x610f]);
  (677778900624537800, [0x8054806f]);
  (677904781809337700, [0x5728]);
  (678169649215241500, [0x5f537576]);
  (678943028664266900, [0x98a898ce]);
  (679363920810383700, [0x7b97]);
  (679658321023017700, [0x627f]);
  (679927880264605300, [0x80fd]);
  (680533825520945500, [0x9650]);
  (680753904579287100, [0x5168]);
  (680961481197671500, [0x77f3]);
  (682005877113779850, [0x76f8]);
  (682163481559326450, [0x536b885b]);
  (682558582823994400, [0x4ee5]);
  (682743499004014250, [0x4e0a]);
  (683048034161584400, [0x51675185]);
  (684020791515687700, [0x5c11]);
  (684141378386332700, [0x4fdd]);
  (685817772924140800, [0x6e05]);
  (686529227560057500, [0x58eb]);
  (686928209997564300, [0x65706578]);
  (687149021569480300, [0x6e38904a]);
  (687758779556292100, [0x7530]);
  (688372278413043800, [0x6728]);
  (688526243031603000, [0x9996]);
  (688666416870086200, [0x5df4]);
  (688736577540893800, [0x8def]);
  (689908493529935700, [0x57fa]);
  (690807279807177100, [0x9f8d9f99]);
  (691094306410660300, [0x8cac8d23]);
  (691483103790050600, [0x80b2]);
  (692323444869688500, [0x8fbe9054]);
  (693068245683989900, [0x9b6f9c81]);
  (693803867656546500, [0x90099078]);
  (695022126669621600, [0x7528]);
  (696073977088743700, [0x82b1]);
  (696467499618681400, [0x6d41]);
  (696604080564110900, [0x6b21]);
  (697412196572813500, [0x72d0]);
  (697672793025954500, [0x52dd80dc]);
  (698257770063557400, [0x6bd4]);
  (698986060258682600, [0x898f89c4]);
  (699422469928868200, [0x5ea6]);
  (699594439016820900, [0x51e05e7e]);
  (699672704654376300, [0x7a7a]);
  (700222286001551500, [0x5b815be7]);
  (700901647173556200, [0x70b99ede]);
  (700917501315484000, [0x5bb9]);
  (701473985778824700, [0x943594c1]);
  (701857372829896900, [0x547d]);
  (701921413818316800, [0x5c45]);
  (702403032986549800, [0x519c8fb2]);
  (702822320812553400, [0x7a0b]);
  (702838482428750200, [0x8272]);
  (703470831516000400, [0x590f]);
  (703764039088823350, [0x671d]);
  (703780353633275900, [0x5916]);
  (704189084685419800, [0x7d1a7ea7]);
  (704205468727399500, [0x62a48b77]);
  (704369456956999600, [0x65979b25]);
  (705924235216539750, [0x606f]);
  (706141173140584700, [0x592b]);
  (706828461069360900, [0x60f3]);
  (706946276449478500, [0x89e3]);
  (707520505353818200, [0x5e085e2b]);
  (709573965597989000, [0x82f1]);
  (709781649992472900, [0x7d007eaa]);
  (710424739025501900, [0x540d8001]);
  (710511961010970500, [0x5e02]);
  (711635173942802900, [0x6069]);
  (712237052198061300, [0x9d3b9e3f]);
  (713039267035934200, [0x517395dc]);
  (713057167331336800, [0x5236]);
  (713092977537628200, [0x5409]);
  (713667691763185000, [0x8d77]);
  (713703721307801100, [0x666f]);
  (713920171608758300, [0x9662]);
  (714318218090529800, [0x79c0]);
  (714445202234577400, [0x6cb3]);
  (714699655298076800, [0x51748208]);
  (715046023341015150, [0x8fde9023]);
  (715834367326696800, [0x5b9d5bf6]);
  (715926439886373100, [0x5148]);
  (716258604797796300, [0x5e866176]);
  (717168461599095200, [0x795e]);
  (717280443693664200, [0x73ed]);
  (717467359635934500, [0x6b64]);
  (717898596828085600, [0x9752]);
  (718067849336754700, [0x611b7231]);
  (719546829651385340, [0x8cbb8d39]);
  (719814618640793800, [0x6d0b]);
  (719833773894180600, [0x5ff5]);
  (720159975852818700, [0x7c73]);
  (720603008456496200, [0x5e9461c9]);
  (721048012576753200, [0x9632]);
  (721495005838740500, [0x96ea]);
  (721592443242922200, [0x4ee4]);
  (722867845599447800, [0x7b49]);
  (723085301452658200, [0x771f]);
  (723164493695957500, [0x732e737b]);
  (723283399774176500, [0x51fa]);
  (723442161466582800, [0x4ef750f9]);
  (723800299533423800, [0x8b588bc6]);
  (724199740847428500, [0x7684]);
  (724600784095993600, [0x9ebc]);
  (724681186110375200, [0x632f798f]);
  (724761652821617000, [0x7b517bc9]);
  (725225597173712900, [0x5546]);
  (725813655240655100, [0x51fb64ca]);
  (726282517581587300, [0x79cb]);
  (726343835927913300, [0x738b]);
  (727412705302517200, [0x901f]);
  (728388728002320550, [0x4f2050b3]);
  (728430472941352900, [0x58f08072]);
  (729374370877446200, [0x6708]);
  (729458705691637200, [0x6027636e64da]);
  (729712137717461500, [0x54c8]);
  (731246367683611350, [0x7763]);
  (731568983298410800, [0x77e5]);
  (732000762898416500, [0x56e25718571f]);
  (733373183960504900, [0x8fdb9032]);
  (733680741320691200, [0x624b]);
  (733967179767059400, [0x928094f6]);
  (734121756368446400, [0x706b]);
  (734298708416388650, [0x899689c6]);
  (734342995396740500, [0x603b7e3d]);
  (734965081384250800, [0x5b8f]);
  (735121209440945900, [0x4fca]);
  (735411809846637200, [0x898b89c1]);
  (736018076439222000, [0x8b708bae]);
  (736741406898574000, [0x53f2]);
  (737059516687393500, [0x88c588dd]);
  (737105043662912400, [0x6d1b]);
  (737196159842336900, [0x5411]);
  (737241749084065750, [0x6d2a]);
  (737447158262759500, [0x91cd]);
  (739245270332220900, [0x515a5c559ee8]);
  (739408231606790200, [0x6c99]);
  (739431533482696600, [0x6613]);
  (739758331159158200, [0x68116a39]);
  (739828498393939800, [0x5ddd]);
  (740039295989271100, [0x5b57]);
  (740109660715992850, [0x6e90]);
  (740274037881101600, [0x4e245169]);
  (741384766540094500, [0x68c06aa2]);
  (741670345030230300, [0x5bf95c0d]);
  (741789577189341900, [0x535a]);
  (742700417618773700, [0x8ad68bba]);
  (742989783627292300, [0x827a85dd]);
  (743207358957896200, [0x805e95fb]);
  (743255773386341200, [0x4f1f4f26502b5049]);
  (743960429442643100, [0x5f8b]);
  (746079779343762900, [0x7701]);
  (746254277705379000, [0x5c04]);
  (746654278238713600, [0x52d2]);
  (747156539465342700, [0x8fdc9060]);
  (747307711073875000, [0x4fe1]);
  (747332928574954200, [0x7687]);
  (747383382662805600, [0x7d717edf]);
  (747534897843306640, [0x573a5834]);
  (747889328594086300, [0x632563ee]);
  (748041612887475300, [0x5217]);
  (748194129439663100, [0x8840]);
  (748397847360893800, [0x7ba1]);
  (748525382131400450, [0x56095ead]);
  (749268308566274300, [0x8f158f7b]);
  (749345478988110500, [0x7e547ec7]);
  (749525775237852350, [0x70ed71b17965]);
  (750198307519233300, [0x67436b0a]);
  (750276199253666000, [0x667a745e]);
  (750354151706619500, [0x96c6]);
  (751032297237159100, [0x5e725e79]);
  (751084653259297400, [0x661f]);
  (751425637196239600, [0x5e0c]);
  (751504491189023050, [0x8fc7904e]);
  (751899696551252200, [0x9020]);
  (752084661592755750, [0x513f5152]);
  (752190509710603400, [0x826f]);
  (752216989255309900, [0x5473]);
  (752402542655135500, [0x5175]);
  (752827962068346950, [0x529f]);
  (753630534594577400, [0x7d0d7eb3]);
  (753926432591239950, [0x671f]);
  (754115188208830300, [0x7e7c7ee7]);
  (754710750337342500, [0x90a6]);
  (755528639302320800, [0x534f5354]);
  (755556017810363100, [0x6839]);
  (755638198338204250, [0x8cea8d28]);
  (756270502850369400, [0x7d447ec4]);
  (757017911173946000, [0x7403]);
  (757491383719783300, [0x79c9]);
  (758163655159271000, [0x7d307ec6]);
  (758248007758114900, [0x6d32]);
  (758416926717199400, [0x60e0]);
  (758473296504486900, [0x74e6]);
  (759010400269180900, [0x842885a9]);
  (759067105686067500, [0x611f]);
  (759351116101342300, [0x5e2d]);
  (759379561557372500, [0x4e8e]);
  (759436476755266400, [0x53f8]);
  (759521910335857900, [0x51e49cf3]);
  (760208019373852500, [0x67816975]);
  (760610434403825000, [0x96f7]);
  (760841115013616500, [0x8eab]);
  (761246090979308500, [0x597d]);
  (761304078803490650, [0x539f]);
  (761594523387569600, [0x5bcc6842]);
  (761652713671434400, [0x5225522b]);
  (762207216770319900, [0x5fe0]);
  (762382963739984500, [0x79ef7a4d]);
  (762617774531758500, [0x7565]);
  (762676563481129500, [0x8db3]);
  (762735387012237400, [0x9a579a8c]);
  (762823687238725250, [0x6e56]);
  (762882597402431900, [0x54c1]);
  (763295943134142600, [0x5fc5]);
  (763443981651186000, [0x68ee]);
  (763711004506774000, [0x773c]);
  (764217334702428600, [0x52125283]);
  (764336844725616200, [0x4ecb]);
  (764906476006561800, [0x9999]);
  (764996715146389600, [0x82738277]);
  (765026812964525100, [0x540e5f8c]);
  (765177438087143800, [0x4e45]);
  (765449136367490900, [0x4e39]);
  (765539866753270400, [0x590d]);
  (765600399442770100, [0x7d507ed3]);
  (766207750231689700, [0x89d2]);
  (766451727174913800, [0x96469678]);
  (766880124402917100, [0x8a188bb0]);
  (766910794545773700, [0x662f]);
  (766972163065650000, [0x585e]);
  (767680621288348950, [0x793e]);
  (767866264906021550, [0x83ab]);
  (768083285608157100, [0x8a718bdd]);
  (768176438851968250, [0x666e]);
  (768394134475183850, [0x71d5]);
  (768956109104353300, [0x8b498bc1]);
  (769018746124879100, [0x96c4]);
  (769144137990838500, [0x5bc6]);
  (769206892934849700, [0x96c5]);
  (769301099253639800, [0x7248]);
  (769332521092075800, [0x6b6582e5]);
  (769395394404426800, [0x9759975c]);
  (769426845890768800, [0x8981]);
  (769615762823529500, [0x4efb]);
  (769805037327985100, [0x85cf]);
  (769899809093094600, [0x65bd]);
  (769963040204907300, [0x53f68449]);
  (769994670760287300, [0x79cd7a2e]);
  (770026311323753300, [0x7259]);
  (770788703834819260, [0x71df8425]);
  (770980213628429100, [0x5830]);
  (771556953452020800, [0x4f55]);
  (771943302934525300, [0x9675]);
  (772007839884167700, [0x5b69]);
  (772395938689538500, [0x7834]);
  (772493199193234050, [0x6e7e7063]);
  (773602147283023540, [0x6536]);
  (773766270083691400, [0x9178]);
  (773897762541822300, [0x6c926ca1]);
  (773930662690169800, [0x59cb]);
  (773996495477274100, [0x5230]);
  (774128291212990900, [0x6258]);
  (774260260879125400, [0x5eb7]);
  (774458542503903200, [0x83b1840a]);
  (774723531065720500, [0x76ee]);
  (774856289133675700, [0x62ff]);
  (774955973474876000, [0x6301]);
  (775089040693446500, [0x8eca8f66]);
  (775288974115594800, [0x53cd]);
  (775556175343375800, [0x8499]);
  (775589625753455300, [0x7dda7ebf]);
  (776092729279839060, [0x5b88]);
  (776632177654774600, [0x679c]);
  (777174551865710800, [0x6ce281f390fd]);
  (777617407299075700, [0x98db98de]);
  (777959404896437600, [0x51b36c7a]);
  (778130843306334000, [0x59048655]);
  (778233847607286760, [0x5f71]);
  (778405757568826200, [0x4f73]);
  (778474604387380300, [0x69ae8363]);
  (778715942204914050, [0x96e8]);
  (778923267780214400, [0x836f85e5]);
  (779200372218008800, [0x5251528d]);
  (779235064325902300, [0x53d88b8a]);
  (779478246658704000, [0x60c5]);
  (779547836083920100, [0x8033]);
  (779826679066965100, [0x6c5d]);
  (780036322749617900, [0x8aaa8bf4]);
  (780492064116869200, [0x5347]);
  (780985196500488000, [0x51885ca1]);
  (781161906212490000, [0x7956]);
  (781232677623794900, [0x6d69]);
  (781551770254055800, [0x51656cb9]);
  (781587287924470000, [0x7532]);
  (781765065749069900, [0x6b7b]);
  (782121572365519500, [0x83b284ee]);
  (782193026459306400, [0x96be96e3]);
  (782228772661653100, [0x5948]);
  (782336088000158400, [0x4f17773e]);
  (782838421313380800, [0x66f2]);
  (783887065889391600, [0x8c61]);
  (784214755969623050, [0x4f9d]);
  (784653353163948500, [0x7b2c]);
  (784763303697290200, [0x542f]);
  (785351757031982500, [0x5f69]);
  (785425557773339560, [0x677e]);
  (785943693647539300, [0x6167]);
  (785980806284818100, [0x4e89722d]);
  (786352692172691800, [0x6548]);
  (787326118054530000, [0x6d25]);
  (787363747405867700, [0x6761689d]);
  (787854221884691300, [0x91ce]);
  (787929893473622000, [0x4e3e8209]);
  (788195195884302800, [0x6c42]);
  (788347113877819800, [0x52b352de]);
  (788537336495574900, [0x8404]);
  (788689775549484600, [0x5404]);
  (788880651728834400, [0x59c6]);
  (788957104331946700, [0x7d047ea6]);
  (789263500588498900, [0x5f62]);
  (790110963287596100, [0x56de]);
  (790188362672265000, [0x70759748]);
  (790343341393714600, [0x6c27]);
  (791160943767970300, [0x5146]);
  (791906483811381200, [0x4ec1]);
  (792143076981681600, [0x5d07]);
  (792301117314852550, [0x68376a23]);
  (792737020521419800, [0x5b595b6b]);
  (792776742468317500, [0x73af74b0]);
  (792816480199815900, [0x82cf8607]);
  (793134951806567900, [0x4f01]);
  (793254640629952500, [0x793c79ae]);
  (793294568759850200, [0x4e01]);
  (793334512838671650, [0x654f]);
  (793454440896219800, [0x76ca]);
  (793694729357850900, [0x524d]);
  (793895411745089900, [0x53cb]);
  (794338335762940200, [0x690d]);
  (794499886686605700, [0x53f0]);
  (794823773609420050, [0x5ef6]);
  (795474711627971800, [0x63a5]);
  (795597235637581900, [0x72b672c0]);
  (795679001790951800, [0x5973]);
  (795760834856075050, [0x5c31]);
  (796996435419345900, [0x533b592268a691ab]);
  (797245398203541800, [0x52a9]);
  (797745190997347500, [0x541b]);
  (797954177489293400, [0x5e1d]);
  (798205539163325000, [0x822a]);
  (798625884464887700, [0x53615854]);
  (798668016338272700, [0x5baa61b2]);
  (798963437528015900, [0x8005]);
  (799174988273297800, [0x6ee16eff]);
  (799259734041081600, [0x8cb48d359707]);
  (800153927778647800, [0x53f3]);
  (800196708527963300, [0x4f195925]);
  (800282324971549200, [0x6750]);
  (800453778078273400, [0x76f4]);
  (800840625756065400, [0x9ebb]);
  (800969908256295900, [0x5a01]);
  (801402061046399400, [0x932b9521]);
  (801445379219050000, [0x641664476da66f64]);
  (801662251999780500, [0x5f85]);
  (801879596140979000, [0x93269526]);
  (802184673736499600, [0x4f0a]);
  (802622119753410200, [0x89bd89c8]);
  (802753727581136400, [0x672a]);
  (802797635375475000, [0x5b588b008c0b]);
  (803193675497084800, [0x4ea5]);
  (803768516788171200, [0x97f3]);
  (803812872521876900, [0x5ef7]);
  (803946057891175800, [0x93ae9547]);
  (804525253094662000, [0x5c975d17]);
  (804883355536432500, [0x8f298f88]);
  (804973081877131600, [0x50995907959395f4]);
  (805107822521815000, [0x51b2885d]);
  (805197750585429400, [0x4e95]);
  (805242744961891400, [0x7483]);
  (805287759592406300, [0x9bae9c9c]);
  (805377849688589700, [0x5b98]);
  (805648607976744000, [0x8ca88d27]);
  (805739023896104500, [0x9ed8]);
  (805784262530669300, [0x963f]);
  (805874801242150500, [0x7df47ec3]);
  (805965422000504200, [0x6d3b]);
  (806192333829203000, [0x8afe8bfa]);
  (806419761718907000, [0x6843]);
  (806465309430921800, [0x7d20]);
  (806693359700794400, [0x6bdb7426]);
  (807013506326854600, [0x975e]);
  (807105165361686000, [0x54689031]);
  (807610797328398500, [0x5947]);
  (807656890899161600, [0x79bb96e2]);
  (807933899386543300, [0x5b5d]);
  (808118998930368300, [0x6469]);
  (808258048778960300, [0x9ece]);
  (808816189762779700, [0x7fe0]);
  (808862842434491300, [0x8a2d8bbe8c9d8d1d]);
  (809190021973840400, [0x67b6]);
  (809330570134714000, [0x4ef2]);
  (809612260461825400, [0x54e5]);
  (810083514868362500, [0x6cf0]);
  (810225325338830700, [0x53cc96d9]);
  (810747024411579000, [0x4ec550c5]);
  (810842171897349000, [0x7070]);
  (811223669737249200, [0x7981]);
  (811319272038985800, [0x5e9c]);
  (811750617064357600, [0x966996aa]);
  (811798659342485600, [0x89c089c2]);
  (812183830738271200, [0x7cbe]);
  (812958653016553300, [0x670b]);
  (813007279324343600, [0x6885]);
  (813494847330691900, [0x695a]);
  (813592646849489600, [0x5f255f4c]);
  (813641582500086900, [0x82b3]);
  (813788533298022900, [0x57f98863]);
  (813837564924403600, [0x6dd1]);
  (813886620603582000, [0x8ce28d24]);
  (813984804214807800, [0x7fa4]);
  (814773762942324000, [0x67d3]);
  (815021594543770800, [0x55847267]);
  (815071234653998300, [0x503c]);
  (815220303004583800, [0x56e0]);
  (815270041876536800, [0x8f388f93]);
  (816370603260197000, [0x8fea]);
  (816672870492855700, [0x5224]);
  (816874890763583400, [0x9ec39ec4]);
  (816976054151067800, [0x539a]);
  (817127991379587500, [0x9756]);
  (817178688465591000, [0x8fb9908a]);
  (817432560142943200, [0x6676]);
  (817534289551513000, [0x84c9]);
  (818044494739902500, [0x7d617edc83f2]);
  (818351872031093000, [0x517b9806987a990a]);
  (818403193561601000, [0x5f205f35]);
  (818814716776111600, [0x76db]);
  (819694867422971100, [0x7da07eff]);
  (819746883028825300, [0x72ec7368]);
  (820163984780559100, [0x5883]);
  (820425559609274300, [0x5065]);
  (820792917671315400, [0x67cf]);
  (821584687444994000, [0x51ac]);
  (821903159051746000, [0x656c]);
  (822062776005028300, [0x6751]);
  (822116038323198200, [0x51a0624d]);
  (822275995702012400, [0x8349]);
  (822543161236292700, [0x544a]);
  (822757408774057500, [0x4f10]);
  (822918396198147800, [0x804c8077]);
  (823295044477695500, [0x680768b06a19]);
  (823781400475569300, [0x5f526b78]);
  (823998320300323800, [0x82e6]);
  (824324584863805400, [0x7d22]);
  (824706577142762500, [0x8b198c26]);
  (824761266780439500, [0x5cb3]);
  (824870735866357700, [0x5766]);
  (825090034199858700, [0x57065713]);
  (825254824130036900, [0x96359663]);
  (825972068584156000, [0x57c3]);
  (826193798165020800, [0x4f69]);
  (827309881178773700, [0x6307]);
  (827534600374464100, [0x7814]);
  (827590859166383900, [0x4e1d7d72]);
  (827759825694896600, [0x58fd5bff]);
  (828042072565870600, [0x613f9858]);
  (828268445045109300, [0x56fe5716]);
  (828381823742062000, [0x85e4]);
  (828665834157336800, [0x5f0f]);
  (829179094479988900, [0x5bab5bae]);
  (829236286360301000, [0x600061f7]);
  (829522737429847000, [0x5a468c9e8d1e]);
  (829637548005030100, [0x51b0]);
  (830213586464228100, [0x543e]);
  (830329193413520000, [0x5cf063d0]);
  (831083913977058200, [0x961f968a]);
  (831200532066076500, [0x5931]);
  (831375714592629800, [0x5b87]);
  (831551204546997600, [0x559c]);
  (831727003010087400, [0x68656a4b]);
  (832374254460649000, [0x5f375f3a78a7]);
  (832433303768535500, [0x76ae]);
  (832551507091991100, [0x8f2f8f91]);
  (832610661190137200, [0x9d5d9e45]);
  (832669850301069100, [0x6a21]);
  (832847628125669000, [0x547c]);
  (833025722562768500, [0x53866b77]);
  (833323253279133900, [0x4efd]);
  (833382865799528200, [0x8302]);
  (833502197555932300, [0x526752879aa8]);
  (833621671883166600, [0x864e]);
  (834040959709170300, [0x4ef6]);
  (834221194062556200, [0x8d85]);
  (834522308412325000, [0x8ac78c088cbf8d38]);
  (835248703858147600, [0x5c9b5cf670b3]);
  (835309475661901900, [0x5c065c07]);
  (835735915540547600, [0x60ca9a5a]);
  (835796984244735500, [0x91cf]);
  (835919233648713700, [0x8482]);
  (836102888429443800, [0x75c5]);
  (836471212971073500, [0x4fee]);
  (836717518514313200, [0x865a865b]);
  (836902646614085600, [0x6ecb]);
  (837398003664151600, [0x793a]);
  (837646605408097900, [0x8dc38e8d]);
  (837833463139203000, [0x5f15]);
  (837958229219018600, [0x57238056]);
  (838145670698453700, [0x59d1]);
  (838270827160347800, [0x7bc7]);
  (838333464180873700, [0x82d7]);
  (838584405341416300, [0x9867987e]);
  (838710112460421300, [0x98df]);
  (838835977801141000, [0x6e2f]);
  (839151335993747900, [0x54cd97ff]);
  (839341029379747800, [0x51448f498f6c]);
  (839594514940066500, [0x5fae]);
  (840167217746247000, [0x7b11]);
  (840231054326774200, [0x5c1a]);
  (840358849871323300, [0x4e714e8265ed7d2b]);
  (840422808939701400, [0x5f66]);
  (840679055076071400, [0x5b9c]);
  (841064659666980300, [0x540366fc7709]);
  (841516419067112400, [0x5ba3]);
  (841710656745533000, [0x523b671b]);
  (841970228597961000, [0x984d989d]);
  (842165350611087300, [0x6fc073b2]);
  (842230475979719300, [0x517753ca]);
  (842426106951795400, [0x596559677e8c7eed]);
  (842622121388942900, [0x78c1]);
  (842687545009202500, [0x6253]);
  (842884073077697800, [0x52c7]);
  (842949668357189800, [0x6551]);
  (843080988139686000, [0x526f]);
  (843212480597816800, [0x6b96]);
  (843344146186291600, [0x98189886]);
  (843806345754575000, [0x9f4a9f50]);
  (844204224263551400, [0x67e5]);
  (844403758749441000, [0x843d]);
  (844537003272818900, [0x4e0e72478207]);
  (844603692171589200, [0x4ebf5104]);
  (845071763905478500, [0x5cb8]);
  (845273038713448200, [0x76ea8361]);
  (845340220442545300, [0x6717]);
  (845676807768056000, [0x8a668bd5]);
  (845811760555069200, [0x4ece5f9e]);
  (845946895710769000, [0x5668]);
  (846149941465807300, [0x6bcd]);
  (846217715104457100, [0x7d397ecd]);
  (846353400335586000, [0x53c253c3]);
  (846897989836732300, [0x52bf52e2]);
  (847034601879836700, [0x65578d25]);
  (847171400806779000, [0x6c0f8c37]);
  (847239870511610800, [0x51c66e96]);
  (847308387129570500, [0x5c3d76e1]);
  (847582924021289800, [0x674e]);
  (847651676172502600, [0x8000]);
  (847720475624820800, [0x8ca18d22]);
  (847789322443375000, [0x51b7]);
  (849036739865892500, [0x53ec]);
  (849246164026204000, [0x5f027570]);
  (849526080234165400, [0x8f9b]);
  (849666332711574000, [0x8c6b]);
  (849806782172863800, [0x53d66025]);
  (850158771272641700, [0x845b]);
  (850299914556482500, [0x4ea6]);
  (850582800176530400, [0x62366237]);
  (850866488310050300, [0x6df1]);
  (851293535222395500, [0x6821]);
  (851364887348148400, [0x7bc08282]);
  (851436290421514000, [0x5c01]);
  (851722413649617300, [0x8ef88f74]);
  (851865782849802100, [0x5e015e63811a8173]);
  (852081222789504800, [0x4f4d]);
  (852153139369375300, [0x4eb289aa]);
  (852225107706414600, [0x7fca]);
  (852513500119705200, [0x75be]);
  (852802726640919900, [0x4ea16211]);
  (852875164166724000, [0x81f48a9e8bed]);
  (853020196824488700, [0x6599]);
  (853383701405051900, [0x5207]);
  (853675459453004100, [0x92d2950b]);
  (853821658309454200, [0x65cb]);
  (853894837968775500, [0x8389]);
  (853968071219943000, [0x554f95ee]);
  (854335044108839300, [0x52195247]);
  (854408600566734800, [0x552e]);
  (854482211169985000, [0x663e986f]);
  (854777196634627000, [0x4e607fd2]);
  (855295524340812600, [0x59885abd]);
  (855369790961381700, [0x8a0a8baf]);
  (855444112778255100, [0x5a18]);
  (855518489873539600, [0x51cc9686]);
  (855592922329525300, [0x8089]);
  (856115506572190000, [0x73b073fe]);
  (856340309963978200, [0x90ce]);
  (856415356871815600, [0x6d016f54]);
  (856791438548628300, [0x73cd]);
  (856942268139816800, [0x6b32]);
  (857017768332153700, [0x4e86]);
  (857093325570353500, [0x5e265e36]);
  (857168939940685900, [0x5de7]);
  (857396126710117600, [0x662d]);
  (857471970475603800, [0x70df7159]);
  (857547871807521000, [0x5200]);
  (857699847520662600, [0x5b63]);
  (857928245031445700, [0x6cc9]);
  (858080800362329300, [0x7bad]);
  (858616584269364600, [0x4ed9]);
  (858770194130598500, [0x4e92]);
  (858847087636886300, [0x583162a5]);
  (859078123550204600, [0x670d70b8]);
  (859464373547594300, [0x77408457]);
  (859619292246277300, [0x9db49e64]);
  (859696841687930300, [0x92b79500]);
  (859929851502092600, [0x626c63da]);
  (860085493556858400, [0x767b]);
  (860553878488101100, [0x7434]);
  (861024467591842300, [0x5747]);
  (861339428482132000, [0x55e35c5e5c6c725b7cca]);
  (861497281711436900, [0x56ed5712]);
  (861813737671733200, [0x589e]);
  (861972341987296700, [0x932294b1]);
  (862769158952214400, [0x6539]);
  (863169961091968200, [0x5fbd]);
  (863330732830778000, [0x81118166]);
  (863411215732506700, [0x52386bd2]);
  (863572376121940800, [0x67907ae0]);
  (863895478180085500, [0x4f5b]);
  (864057421535315700, [0x6c7d]);
  (864219627572502500, [0x4e308c50]);
  (865362497154864800, [0x5a4965ad65b7]);
  (865691444819904600, [0x76d684cb]);
  (865856325318923000, [0x7559]);
  (866104156920369800, [0x8cfd8d5b9418949f]);
  (866768059773850700, [0x5c425c64]);
  (867352612586594200, [0x4f545360]);
  (867436399772057400, [0x96b696b8]);
  (867772252312771000, [0x76d176e3]);
  (867940602520882200, [0x5305]);
  (868024884026082000, [0x6f5b6f5c]);
  (868109236624925800, [0x51dd5c3e]);
  (868532070235878000, [0x57d46084]);
  (869041841943044900, [0x4e135c08]);
  (869127057116501500, [0x9b5a9c7c]);
  (869297705622077300, [0x4eca652f]);
  (869468645834642300, [0x8f1d8f89]);
  (869639878753193500, [0x6f14]);
  (869983226729982600, [0x60466052751890a3]);
  (870155343812060000, [0x7dd27eea]);
  (870500469262481300, [0x9d6c9e4f]);
  (870586937058616800, [0x5f395f48984f989c]);
  (870673479686259600, [0x4f50]);
  (870846789954943100, [0x8058]);
  (870933557856265300, [0x5733]);
  (871194314196973500, [0x822c]);
  (871368530268912000, [0x5ce15cfd73e0]);
  (871717875602368000, [0x96f6]);
  (871805402960253400, [0x529e8fa6]);
  (872332182053739300, [0x8f2a8f6e]);
  (872508393553079400, [0x50916770]);
  (873038898776048600, [0x53bb]);
  (873127590577871400, [0x7f6e]);
  (873394138936485500, [0x8036]);
  (873483146508004700, [0x76df]);
  (873750645552935100, [0x739b746a8abf8c03]);
  (873929376610344600, [0x8003]);
  (874018862074929000, [0x886588dc]);
  (874108427687723500, [0x814a81d8]);
  (874287799933126100, [0x636263db]);
  (874377606854294600, [0x50cf7c7b985e]);
  (874557463017886000, [0x6001614b]);
  (874647512551211100, [0x8d6b]);
  (874737643246812300, [0x5e2e5e6b]);
  (874827855251126000, [0x6d4b6e2c]);
  (875008523773621000, [0x68a88b66]);
  (875098980586663800, [0x5f815fb57def7eac]);
  (875280140056498700, [0x538b58d3]);
  (875461628309581000, [0x53d4]);
  (875734479774901500, [0x70ac]);
  (875916795231053000, [0x9038]);
  (876008077756789000, [0x5370]);
  (876282426351364000, [0x4ff1]);
  (876833391932461000, [0x8a0e8ba8]);
  (877017723781890000, [0x5f7c]);
  (877202396041206400, [0x578b]);
  (877294860217928200, [0x7167]);
  (877387409970022600, [0x6768694a]);
  (877480045456035600, [0x7686]);
  (877572766834954800, [0x5802677f6851]);
  (877944514474968000, [0x542c807d]);
  (878224234937074200, [0x62db]);
  (878879974991690100, [0x5178]);
  (879162328120450800, [0x6de1]);
  (879256623271237800, [0x5ca9]);
  (879824269071718300, [0x4e5f5e84838a]);
  (880014202652083600, [0x4fbf6a2a6a6b]);
  (880586177519362100, [0x6d66]);
  (880873396481771700, [0x8a138bad]);
  (881353935609265600, [0x8fd1]);
  (881643371411902200, [0x7de87f16]);
  (881836795069885100, [0x51798332]);
  (882030593580153000, [0x591c]);
  (882516739408777600, [0x6ce8]);
  (882614252824598100, [0x821e]);
  (882809565386686400, [0x606d]);
  (883201338659576500, [0x4e706e296eab8cb7]);
  (883397802376993000, [0x6838]);
  (883594652834260300, [0x52c3]);
  (883890656997108000, [0x866b87f2]);
  (884088480998318500, [0x5c465c4a]);
  (884187539946488200, [0x9732]);
  (884485306915880500, [0x594b596e]);
  (884883713817368000, [0x4e4e628a]);
  (884983564050327000, [0x678469cb]);
  (885083514083635400, [0x80e18d8a9010]);
  (885283714350702600, [0x4e434faf]);
  (885383964985665300, [0x9ed1]);
  (886392038038500900, [0x786e78ba7d147eaf]);
  (886493406521585600, [0x53c8795d]);
  (886594877864640200, [0x96c1]);
  (886798129967132500, [0x50478cab8d2f8d70]);
  (886899911146402400, [0x6668]);
  (887001796025312700, [0x4fc45e957a4e9896]);
  (887103784815387400, [0x56fa]);
  (887410376777570800, [0x9ea59ea6]);
  (887717911617595600, [0x5ba15be9]);
  (887820633763248600, [0x65d77db27f5180de]);
  (888026395152716600, [0x7591]);
  (888129434832106100, [0x80a08178]);
  (888232580792772500, [0x7d217eba]);
  (888335833254191300, [0x4f18512a]);
  (888749912520794500, [0x58ee58ef]);
  (889792674837020300, [0x6574]);
  (890212843522390400, [0x51ef51f15e8f8010]);
  (890423591756346900, [0x817a817e9a30]);
  (890740549232474700, [0x6d6a]);
  (891271054455444100, [0x805a]);
  (891484047081226500, [0x73a9]);
  (891697494334089800, [0x99db9a76]);
  (891804389052980400, [0x53f7865f9f13]);
  (891911398158964800, [0x518d878d]);
  (892233114254142400, [0x753b756b]);
  (892448168100465200, [0x5bd28aa08bda]);
  (892879668230606600, [0x4f9b]);
  (892987834817680700, [0x672b]);
  (893204519626189600, [0x6e58]);
  (893313038356318300, [0x4ed6]);
  (893857405514436100, [0x4e9b]);
  (894075984836434000, [0x82b7]);
  (894185453922352200, [0x53536696]);
  (894295042974415800, [0x6e146f01]);
  (894514582030759400, [0x54385a77]);
  (895286786640150500, [0x63a165e691c7]);
  (895842035151629000, [0x96489673]);
  (896176670154363500, [0x5410]);
  (896288464464497600, [0x8ff7]);
  (896512428723848100, [0x9d519e43]);
  (896736895709230500, [0x929894ed]);
  (896849318430458600, [0x7aef]);
  (896961867682632000, [0x55317537]);
  (897187346921341000, [0x5f92]);
  (897300277481056200, [0x67f3]);
  (897526521921453100, [0x593a596a7f8a]);
  (897639836381169900, [0x623f]);
  (897753279388231100, [0x62987384]);
  (897866851234623900, [0x5ea788d5]);
  (898094382618337400, [0x6b226b61]);
  (898208342744630700, [0x5fa1656679a6]);
  (898322432888209800, [0x4e59]);
  (899470551125605600, [0x5757584a64ad77ff7926]);
  (899586091288661100, [0x797a8c6a]);
  (899817572873506300, [0x969096b1]);
  (900049591539076000, [0x654c6575]);
  (900165803057093700, [0x907f]);
  (900282149783423500, [0x607660e1]);
  (900398632033052800, [0x8150]);
  (900515250122071000, [0x5e55]);
  (900632004367674800, [0x5bbe778e8cd3]);
  (900865922602992000, [0x4f0f]);
  (901453123350714200, [0x4f7f]);
  (901570978402658700, [0x83dc86cb]);
  (901688972516643600, [0x77ed]);
  (902281040557616400, [0x5c3f]);
  (903115869496763500, [0x521a525b679d]);
  (903596062496304200, [0x9152]);
  (903716471902784800, [0x7e6a7ed8]);
  (903837026468319500, [0x7ffc]);
  (904078572479480000, [0x4e34684881e8]);
  (904199564629751300, [0x5b5f]);
  (904563421914142100, [0x8a898b7d]);
  (904685002476231000, [0x8a698bd7]);
  (905172808321574400, [0x697c6a13]);
  (905417606485438300, [0x8c46]);
  (905663005381595100, [0x4f51]);
  (905785931027068000, [0x51c06de8]);
  (905909007965681200, [0x674296dc]);
  (906032236570307800, [0x5e45]);
  (906155617215200600, [0x8cf48d56]);
  (906526675154854200, [0x964d]);
  (906650667731186200, [0x96349670]);
  (906899115063952400, [0x7ae5]);
  (907148181195197600, [0x6b23]);
  (907272947275013100, [0x5bb370c8]);
  (907522947405221600, [0x6590]);
  (907773574102827600, [0x5f8083ca]);
  (907899123397410800, [0x68816df56e0a9006]);
  (908150695857135500, [0x5d0e]);
  (908276719818364200, [0x620f6232]);
  (908655747435742400, [0x8857]);
  (908782409897261600, [0x51e19b3c]);
  (909036217140108800, [0x6c886c89]);
  (909163362738928300, [0x69b48910]);
  (909673567927317900, [0x624e6eaa]);
  (909801526997880400, [0x96de9e21]);
  (910057937394774200, [0x6295]);
  (910315006945084300, [0x971c]);
  (910443789963527200, [0x66f4]);
  (910572739046514300, [0x52b252c1]);
  (910701854622876400, [0x4f4f]);
  (910831137123106800, [0x52185289638c8f098f7d]);
  (911219990497076200, [0x900f]);
  (911349945031284700, [0x675c]);
  (911480068667081900, [0x62e964c7]);
  (911871458599195400, [0x674f]);
  (912658864242286100, [0x5e935eab]);
  (912790703417611800, [0x5fd98087]);
  (912922716638104200, [0x806a8070]);
  (913054904363895800, [0x7a46]);
  (913187267056946600, [0x56f067a26a1e]);
  (913452519201859700, [0x5bc48edf8f6f]);
  (913585409586865000, [0x6643]);
  (913718476805435600, [0x4e6163a79109]);
  (913851721328813400, [0x620865c5]);
  (914118744184401200, [0x7b56]);
  (914252523468567300, [0x5a92]);
  (914386481961473000, [0x5ba2]);
  (914520620143893100, [0x7e967ea4]);
  (914789437510073200, [0x76d876e4]);
  (915058979452240400, [0x9e7f]);
  (915600252762915400, [0x53d7]);
  (915871992060565400, [0x89ba89c9]);
  (916008139120397400, [0x841d863f]);
  (916417696006871200, [0x59d08212]);
  (916554588567605300, [0x5fd8]);
  (916691668780983300, [0x76c6]);
  (916828937162180500, [0x5339535c971e]);
  (917379902743277500, [0x5de6]);
  (917656528092566500, [0x5df26749]);
  (917933920780839000, [0x58c181e3]);
  (918351457921887000, [0x5c0a]);
  (918491025285784500, [0x5012711571658e0f]);
  (918630787712448300, [0x4e5455ac656380a1]);
  (918910899940419400, [0x51b6614c]);
  (919051250840651500, [0x4f4e8ddd]);
  (919191799001525000, [0x51c96dbc]);
  (919473489328636300, [0x4e185fc661b6]);
  (919614632612477000, [0x7d667ed9]);
  (919755975392191700, [0x5cad5dba]);
  (920039261700622100, [0x599967aa69cd]);
  (920181206366044800, [0x4e1550a851328986]);
  (920323352800782500, [0x53568ce3]);
  (920465701579268000, [0x6c61]);
  (920608253278390000, [0x4e73]);
  (921037131705611900, [0x8b1d8c22]);
  (921467857425369800, [0x79fb]);
  (921756042062858700, [0x563b6bd3]);
  (922045059605082000, [0x707d707e8fce]);
  (922189882222718500, [0x582a]);
  (922480158188514700, [0x6297810f81df]);
  (922625612759614100, [0x7af9]);
  (923063250219594000, [0x5ffd6f6e7840790e]);
  (923209556024770000, [0x5df179df]);
  (923356076197502800, [0x53485986599d]);
  (923502811366897800, [0x76c8]);
  (923796929225979500, [0x8328846c]);
  (923944313187809600, [0x681668f2]);
  (924387772894596000, [0x54f2]);
  (924684509017376200, [0x4f2450b7690e]);
  (924833207929534100, [0x52e457615dee]);
  (924982128284680800, [0x54285678]);
  (925280635969026100, [0x52aa6dcb]);
  (925730074927810200, [0x7968]);
  (926030827034205700, [0x72d7]);
  (926332486388148300, [0x7f6a]);
  (926635058479801900, [0x8ca08d1f]);
  (926786688531598400, [0x5bfb5c0b]);
  (927090640133388000, [0x9014]);
  (927395518418323800, [0x6f2b8acb8bf7]);
  (927701329054206000, [0x7ff0]);
  (927854585789183700, [0x56175c1d]);
  (928008077760992100, [0x63f4]);
  (928161805692880800, [0x80a5]);
  (928315770311440000, [0x5937]);
  (928624412531759000, [0x9813987f]);
  (929556096289782000, [0x72b9733679f07a31]);
  (929868596544095600, [0x6d889f619f84]);
  (930025213647370000, [0x88c1]);
  (930182076424632800, [0x5e15]);
  (930339185647836900, [0x743c74ca8944]);
  (930496542092579800, [0x62dc80838085]);
  (930654146538126500, [0x7586]);
  (930811999767431400, [0x8a2a8bbf9640]);
  (930970102567163200, [0x79c193e1955c]);
  (931128455727727700, [0x7a057a0e]);
  (931287060043291200, [0x92fc94a2]);
  (931605025335029200, [0x594f5f177941968f96a8]);
  (931764387918557000, [0x75db]);
  (932244005144906200, [0x9cf49e23]);
  (932565032707931000, [0x84dd85cd]);
  (932725933788501200, [0x6d3e]);
  (933048514713389400, [0x83cc]);
  (933210196236080000, [0x7433]);
  (933372139591310200, [0x59e87237723a]);
  (933534345628497000, [0x4ed1535555ae5d197b147b46]);
  (933859549167134900, [0x4eae5a5a8096928594dc]);
  (934022548388227800, [0x97099ef49f0e]);
  (934185813730616500, [0x6cca]);
  (934349346064689500, [0x6b4c]);
  (934677215210859400, [0x55806912]);
  (934841553785232400, [0x81a8]);
  (935006162875899200, [0x53bf7e237f55]);
  (935171043374917600, [0x67319001]);
  (935336196178764800, [0x70ae98ef996d]);
  (935501622188367500, [0x8d0a8d5e]);
  (935667322309130400, [0x4e265e76600e]);
  (935833297450967000, [0x5f556b8a9304]);
  (936166076460234500, [0x629a64ab]);
  (936332882170304000, [0x6c85]);
  (936499966586786000, [0x6b276b50923494c3]);
  (937002901427286000, [0x532f552f6c47]);
  (937508378493448500, [0x5b8b]);
  (937677440241239200, [0x59766eb6]);
  (937846788291872500, [0x53985f1f]);
  (938356559999039400, [0x57f76267746474769189]);
  (938527063024147700, [0x5de879a7]);
  (938697857258663300, [0x53e56e21]);
  (939040323346799800, [0x5b99]);
  (939211997208705200, [0x521b521d527575977642]);
  (939383966296658000, [0x80c681bd]);
  (939556231627802600, [0x62e564c1]);
  (940074815331039000, [0x8af88bf8]);
  (940248275912259900, [0x6168]);
  (940596102349892500, [0x6e1d8fa3]);
  (940770470310375000, [0x5439]);
  (940945142843869300, [0x8f3b8f90]);
  (941120121016248000, [0x6cbd98029876]);
  (941295405898989500, [0x4e08958395ea]);
  (941470998569216000, [0x60ef6163]);
  (941646900109733800, [0x746983b9]);
  (941823111609074000, [0x65c167f178e88108810998c498d8]);
  (941999634161530800, [0x50297cae7ce7]);
  (942176468867205000, [0x62d4]);
  (942353616832043200, [0x5e7c7fbd]);
  (942531079167880000, [0x536274dc76e7]);
  (942708856992480000, [0x90ae90f5]);
  (942886951429579400, [0x6b4793109525]);
  (943244094666339100, [0x5c4075388a318bb8]);
  (943423145743718000, [0x609f]);
  (943602517989120700, [0x8f5f8f70]);
  (943782212556790900, [0x614e7d557edd]);
  (943962230607205700, [0x9760]);
  (944142573307120600, [0x4e7e6d8595f99b27]);
  (944323241829615500, [0x58936cea6dda]);
  (944504237354139600, [0x5bfa]);
  (944685561066557600, [0x9b42]);
  (944867214159197400, [0x82399375952e959295f2]);
  (945231513287047400, [0x9c2d9ccd]);
  (945780462515524600, [0x5180]);
  (945964117296254900, [0x786c]);
  (946332441837884500, [0x5be160126015]);
  (946517114097200900, [0x68cb]);
  (946702128026017000, [0x58755c18]);
  (946887484890949300, [0x541e]);
  (947073185965670600, [0x66b4]);
  (947819458085829500, [0x5f7b5fb9]);
  (948006899565264600, [0x5578562f575a58056bc582ac]);
  (948194693047684600, [0x7d2f]);
  (948382839857655200, [0x5956734e]);
  (948760198796019200, [0x67ef]);
  (948949413611223000, [0x4e535a03809a]);
  (949519215722686700, [0x55615764656266d9]);
  (949709873549744900, [0x4f3c706f71c8]);
  (950092283193585300, [0x53c9708e]);
  (950284037806512300, [0x6649664b9676]);
  (950476160824301700, [0x4e4c70cf]);
  (950668653665260200, [0x77aa]);
  (951054754531006100, [0x707f71e6]);
  (951248365433692700, [0x4e2556b490c19b31]);
  (951442351915475400, [0x5446]);
  (952026579477898200, [0x5fe76182]);
  (952417969410012000, [0x5b548fa8]);
  (952614240326796800, [0x4e1b53e26e9c]);
  (952810897224000900, [0x6f6d]);
  (953007941622730700, [0x6216]);
  (953205375053102500, [0x5fcc6279653b]);
  (953403199054313000, [0x5e9f5ee296c0]);
  (953601415174712100, [0x658c68536c607cd67d177eb18e44]);
  (953800024971875000, [0x6492]);
  (953999030012676200, [0x5feb]);
  (954598432406697100, [0x57df6148]);
  (954799034279383800, [0x594963a86d1e7a3c7de37f18]);
  (955000039372186100, [0x82308266]);
  (955201449309356400, [0x4ec76ec5706d7a777aae]);
  (955605490263056700, [0x6234745a9047]);
  (955808124577580100, [0x51f099289986]);
  (956214629202397000, [0x65e96b8b6b987e2e7f29921e94a7]);
  (956418502871381900, [0x5b646bbf]);
  (956827501396534300, [0x7d277dca]);
  (957238179591799600, [0x8305]);
  (957444152888100700, [0x93969501]);
  (957650551310185900, [0x67406bba]);
  (957857376616591900, [0x535170e771d275ab]);
  (958272314971272900, [0x984c9898]);
  (958688982240757600, [0x827e]);
  (958897968732703500, [0x70c2721b9000]);
  (959107392893014900, [0x51db51dc58a8]);
  (959317256558707000, [0x80158fd89084]);
  (959527561578385000, [0x5112]);
  (959738309812341400, [0x8584]);
  (959949503132655800, [0x59cd59d7737283b7]);
  (960161143423293600, [0x5f269edb]);
  (960373232580207200, [0x4e2755aa59b96ed1]);
  (960585772511438700, [0x5bf8]);
  (960798765137221100, [0x85d5]);
  (961226116214959300, [0x817f]);
  (961655301423113300, [0x50e752375954]);
  (962086336573225700, [0x5a1f6e7f6fd573ca8fb1]);
  (962302552873675200, [0x622a]);
  (962519237682184100, [0x604b62006c287c92]);
  (962736393033534900, [0x608560a6]);
  (962954020975794500, [0x4e19]);
  (963172123570430500, [0x602a719f8b6f8bd1]);
  (963390702892428600, [0x820c]);
  (963829300086754000, [0x53e0758a7dbf7ef5]);
  (964269829433545700, [0x4ed8]);
  (964490823998626000, [0x59156bb5]);
  (964712308031581100, [0x7b797c4c]);
  (964934283705412500, [0x71c37db17eb2914d]);
  (965379718740350500, [0x7a00]);
  (965603182520492200, [0x7387904d]);
  (965827146779842700, [0x5a9b5eb86cb88679]);
  (966051613765225000, [0x541554426b62724c]);
  (966276585738626500, [0x6b3d751a932f94a69519]);
  (966502064977335500, [0x503e50be]);
  (966728053774079200, [0x53735c9a5d50]);
  (966954554437164400, [0x58576d82785578a9]);
  (967409100674332000, [0x7d197eb8]);
  (967637150944204400, [0x4ed56ccc]);
  (968094817646945700, [0x978d]);
  (968324438872980600, [0x7a337a69]);
  (968554588571808500, [0x4e2b5dcd5f2f5f4e]);
  (968785269181600100, [0x6fd17028]);
  (969016483157438000, [0x660f7272]);
  (969248232971474300, [0x5676]);
  (969713350089047300, [0x4fd76bd575628a348bc9]);
  (970180640658986500, [0x5b8c85aa8fb09644]);
  (970415107354912000, [0x62c7]);
  (970650125089407300, [0x60506ce57da27ef8]);
  (970885696458653200, [0x718a72e0]);
  (971121824077221300, [0x745f8154]);
  (971595758613611000, [0x4ead7236]);
  (971833570854107600, [0x6c83]);
  (972071949989635300, [0x6cf3923a94b098fe9970]);
  (972310898729373500, [0x4e1e7d1b7eb7]);
  (972550419801968900, [0x90599065]);
  (972790515955722800, [0x6b3e6beb]);
  (973031189958779300, [0x50da516259875a66752b]);
  (973272444599317600, [0x803f]);
  (973514282685745700, [0x88c2]);
  (973756707046896400, [0x5e187c3e]);
  (973999720532225600, [0x79d89f3b]);
  (974243326012013700, [0x8cc08d3a]);
  (974487526377568800, [0x514d5a1c]);
  (974977723437589600, [0x6367]);
  (975223726021675800, [0x97cb97e6]);
  (975470335271195100, [0x541f5851788e7a74]);
  (975717554185734100, [0x5858612461a46ee86ff1]);
  (975965385787180800, [0x578286c795a39601]);
  (976213833119947000, [0x6c9b7d6e]);
  (976462899251192200, [0x517c55105821]);
  (976712587271050800, [0x65fa67d477ac]);
  (976962900292862600, [0x5b5c]);
  (977213841453405300, [0x53717b548179946b]);
  (977465413913130000, [0x6155]);
  (977717620856401000, [0x4f11505a]);
  (977970465491736900, [0x4ec650d563778e48]);
  (978223951052055600, [0x9664]);
  (978478080794922900, [0x857e]);
  (978732858002802800, [0x8f148f85]);
  (979501107620004400, [0x610895d695ef96ef]);
  (979758508019521700, [0x9057907a]);
  (980016572678870900, [0x5bbf647880aa]);
  (980275305035366000, [0x64cd]);
  (980534708553070500, [0x5f188877]);
  (981055543063784400, [0x7b26]);
  (981316981121191600, [0x8b1b8bb2]);
  (981579104469178900, [0x4ed38a8d8ba4]);
  (981841916709805900, [0x662097009808987b]);
  (982105421473606400, [0x5e055e2568d2]);
  (982369622419890300, [0x8ca78cbd8d2b8d3b]);
  (982634523237048000, [0x5984]);
  (983166439384808000, [0x5708]);
  (983433462240395800, [0x83368cfc8d2d958995ed]);
  (984238835721105500, [0x5faa8ddf]);
  (984508741418022000, [0x5306574f58de77db]);
  (984779377577796400, [0x51416392]);
  (985050748164956000, [0x6dfb812b8131]);
  (985322857176392000, [0x5f6c676d]);
  (985869306623599900, [0x6ca76ec46fb374f6]);
  (986418758555364000, [0x813e9022]);
  (986694620799272000, [0x5ab3838e9b4f]);
  (986971246148561000, [0x7e41]);
  (987248638836833500, [0x8f9e8fad]);
  (987526803133021100, [0x6dde]);
  (987805743341779000, [0x5598821c]);
  (988085463803885100, [0x5bc567f568057533]);
  (988365968896646000, [0x751c785d820d900a905c]);
  (988647263034307500, [0x644664fa665666897825]);
  (988929350668471600, [0x5be8]);
  (989212236288519400, [0x82ef8feb]);
  (989495924422039300, [0x5e786c57]);
  (989780419635262600, [0x934b9505]);
  (990065726533503100, [0x602169846b16]);
  (990351849761606400, [0x4e585c656e5b7d107ebd]);
  (990638794004401600, [0x7fc5]);
  (990926563987163000, [0x4eea510060d1818f840d]);
  (991215164476076700, [0x5378]);
  (991504600278713000, [0x4f8b]);
  (991794876244509300, [0x5e0698059879]);
  (992085997265255000, [0x8102829d]);
  (992377968275588500, [0x558a62d3693f797f798491ca91cb]);
  (992670794253497300, [0x5634]);
  (993259031243804100, [0x59746cab7a9d7aa9903b908f95ca9614]);
  (993850748946613000, [0x575d58e9595163cf7741775c8b5c8c31]);
  (994147925985528700, [0x90029069]);
  (994445988799342500, [0x4f6c6dee9050]);
  (994744942684179000, [0x5b5560df]);
  (995949776535796400, [0x72fc]);
  (996253266905311800, [0x54016606665f6746676f687f7c728ff0]);
  (996557681143434600, [0x74908e35]);
  (996863024892123700, [0x53f95606]);
  (997169303845178200, [0x80bf816b]);
  (997476523748875400, [0x59d35ec976d09e7d]);
  (997784690402616200, [0x5955]);
  (998093809659583400, [0x4f8871997c89]);
  (998403887427408200, [0x633a66978a958bde969c]);
  (998714929668847500, [0x6545]);
  (999026942402471900, [0x5f3c754f9192]);
  (999339931703364600, [0x542b970d]);
  (999653903703831400, [0x514553eb55876a0a]);
  (999968864594121000, [0x53758cde8d4f]);
  (1000284820623157800, [0x4fa04fe09f20]);
  (1000919743391023800, [0x6c90819c8377]);
  (1001238722927833700, [0x507f511f88219170]);
  (1001558723200900800, [0x59e560f688708a548bcf]);
  (1002201812233929900, [0x7de97f139003]);
  (1002524914292074400, [0x665466c498389888]);
  (1002849063684491600, [0x731b7459]);
  (1003174267223129400, [0x51a278ca7fd48335]);
  (1003500531786611000, [0x59ff65e27d427ec8]);
  (1003827864321107900, [0x52036016675f80a4819a9ce59e1f]);
  (1004156271841226900, [0x508d90ca]);
  (1004485761430912100, [0x584c5f0368c4886b]);
  (1004816340244362000, [0x7b807c21]);
  (1005480794516229000, [0x505c756a788d7919]);
  (1005814684642780500, [0x5f31]);
  (1006149693331308500, [0x59bb60708cdc8d50]);
  (1006485828101579100, [0x4f367ca47cb5]);
  (1006823096549443000, [0x5fcd6dc08abc8c0a]);
  (1007161506347867000, [0x501f51fd]);
  (1007501065247981000, [0x4f8d6c2f6d6e8a1f8bbc]);
  (1007841781080142200, [0x4ea851925b9b89e689f8]);
  (1008183661755021000, [0x5377665a72ee73459063]);
  (1008870949683797100, [0x6c9f6e9d8352884d]);
  (1009216373170605900, [0x7c9f97f597fb]);
  (1009562993968254400, [0x5c24752c]);
  (1010259860899863900, [0x60a36ea275b27e317eb598fd9971]);
  (1010610123954984000, [0x626b6383]);
  (1010961618165728400, [0x5742809d903c]);
  (1011314352217525300, [0x6bef]);
  (1011668334888037700, [0x518a518c70ef7978798d8861]);
  (1012023575048474600, [0x8d758d99]);
  (1012380081664924200, [0x6a5980c181059738]);
  (1012737863799712600, [0x500d5a075b0c5c4890e1]);
  (1013096930612785400, [0x7d0b7eb99c579cde]);
  (1013457291363115200, [0x8dcb]);
  (1013818955410134100, [0x54c45c608df3]);
  (1014181932215192000, [0x5f845f9160dc]);
  (1014546231343042000, [0x637a]);
  (1014911862463353000, [0x543354346f33]);
  (1015278835352249400, [0x8896]);
  (1015647159893879000, [0x80d68fdf90729a459a71]);
  (1016016846082011500, [0x545c55da8cc88d3e9f529f7f]);
  (1016387904021665100, [0x54ed5c1688ad8972]);
  (1016760343930763400, [0x808c]);
  (1017134176141824000, [0x5bbd5bec5f0460a091dd9488]);
  (1017886059383226900, [0x4f6350ad8a628be2]);
  (1018264131667217500, [0x6eda6efe8a028ba29642]);
  (1018643638764072500, [0x6c226c2b714c77bb7ffb99df9a77]);
  (1019024591605739400, [0x5b857b71]);
  (1019407001249579600, [0x5ba4780178bc798579aa]);
  (1019790878880296200, [0x62f1]);
  (1020176235811895400, [0x55bb56ca612763a28427856d]);
  (1020563083489687300, [0x5239524e68af]);
  (1020951433492327000, [0x6cf56d536fc3]);
  (1021341297533892800, [0x52115321594e6c3d980c9882]);
  (1021732687466006500, [0x57505c4b5dfe7e797ece]);
  (1022125615279995400, [0x5d29]);
  (1022520093109097000, [0x573e770b91d89489]);
  (1022916133230706700, [0x601c619066746caa6eec73ae742a744b9b54]);
  (1023313748068670600, [0x6f847bee7c43]);
  (1023712950195624500, [0x8a3a8bca]);
  (1024113752335378400, [0x67569694]);
  (1024516167365350800, [0x55b756745d16659180cc8fbd907c]);
  (1024920208319051300, [0x60626d456dfa84b8]);
  (1025325888388612800, [0x6cdb8a5e8bcd]);
  (1025733220927376400, [0x54268b398c288dcc]);
  (1026142219452528800, [0x635f640d81c28b808bfb]);
  (1026552897647794200, [0x524a6ed4]);
  (1026965269366180400, [0x4fed5109538953b254ab65f766e08ffd9677]);
  (1027379348632783600, [0x4eec501152ab649e]);
  (1027795149647649900, [0x559d64e66c646e6f]);
  (1028212686788698000, [0x586b66027d9c7efc]);
  (1028631974614701500, [0x5256]);
  (1029053027868336000, [0x5cfb6ef48fe690bb9130]);
  (1029475861479288100, [0x59ca6251643a64b2651c6cc46d296d8c6e67813881c9]);
  (1029900490567433200, [0x65e7820a]);
  (1030326930446079000, [0x6f47701f79e680a99704]);
  (1030755196625279000, [0x501982bd91f59497]);
  (1031185304815218000, [0x620c8c8c]);
  (1031617270929669800, [0x548f60ac61f87f627f7784ec8a558bc4]);
  (1032051111089529400, [0x53456c796d3678b197f69e7c]);
  (1032486841626425000, [0x6df3772f7787]);
  (1032924479086404900, [0x4ed462766f8e7130795f7f3a]);
  (1033364040233708700, [0x7262772082cd84bc906e]);
  (1033805542054620500, [0x54ac56f4570d6065745c77a977da803b]);
  (1034249001761407000, [0x699c]);
  (1034694436796345000, [0x62df64ec708972107cb9]);
  (1035141864835837200, [0x540a6f20715c]);
  (1035591303794621000, [0x5bb572c4853d]);
  (1036042771830073800, [0x4e8854c06d9b6fe47470983b9891]);
  (1037409535702940200, [0x62c5638864d46a616c6a7dbd7ef0846b]);
  (1038331201213432600, [0x5944871c]);
  (1038795239169082800, [0x67dc6ac390ed947c9523]);
  (1039261440479663900, [0x503a50b5]);
  (1039729825410906500, [0x4fb554486e2d8fc89081]);
  (1040200414514647800, [0x58f35e7b61626bbc]);
  (1040673228634242300, [0x62f3870292b39510]);
  (1041148288910102200, [0x5475666480f89e9f]);
  (1041625616785368000, [0x8de18ff9]);
  (1042105234011717300, [0x93189524]);
  (1042587162655312100, [0x54845fe160286e2072af]);
  (1043071425102891000, [0x51a570ad7e617ee3]);
  (1043558044068008300, [0x4ef04f2a507d5c518fe2]);
  (1044538444077670300, [0x4e5261ff6aac]);
  (1045032272241728500, [0x5566660a66fe]);
  (1045528551175941500, [0x7f9e]);
  (1046027305327045400, [0x6f0672ac96cd98f2996e]);
  (1046528559509399900, [0x6850]);
  (1047032338912395500, [0x507759ae804a]);
  (1047538669108050200, [0x6f9c703e7334]);
  (1048047576058797300, [0x52727a818d6497d397e9]);
  (1048559086125474400, [0x709c715280af98019875]);
  (1049073226075516300, [0x4e8f5bb85e3d70e671697dac7dbe7eeb7ef68667]);
  (1049590023091360500, [0x6b67]);
  (1050109504779071000, [0x536653a254b25ec27206]);
  (1050631699177186100, [0x5f906655668870af]);
  (1051156634765800400, [0x5f7968f1]);
  (1052214845698854000, [0x582f5c2780ce88f8]);
  (1052748180296390300, [0x5c385c4d6da46ecc9042]);
  (1053284374610529000, [0x832b92749451]);
  (1053823459474016600, [0x4f0d5f29689772818fc19077]);
  (1054365466220950500, [0x62d68cb88d37]);
  (1054910426697707000, [0x5cea7ddd7f09888b9910]);
  (1055458373274169600, [0x5de2]);
  (1056009338855266400, [0x66706d8979b9865e]);
  (1056563356892828000, [0x5c815e9e65186b7273bb840c9f90]);
  (1057120461397773600, [0x53ee6d526ef8788c99ff9a8f]);
  (1057680686952640600, [0x572d5a9a659c6734684c68936a38829999ed9a87]);
  (1058244068724466100, [0x5c095e9a609a6f0992b99508]);
  (1058810642478033900, [0x57a9580a87ba]);
  (1059380444589497600, [0x7080716c72357aed]);
  (1059953512060396200, [0x549560d5]);
  (1060529882532071000, [0x4fa850d1523a7634]);
  (1061109594300503800, [0x514751f65bb07b8d8680875587768f9f95e2]);
  (1061692686331583000, [0x55076c1f7b4b80c080f6813981a0]);
  (1062279198276822900, [0x4e4f537f963b99d59a7e]);
  (1062869170489541700, [0x6b6a833985878cca8d3c8fa98faf]);
  (1063462644041523200, [0x62cd63117f5a7f70]);
  (1064059660740173500, [0x75f476fe7e5a7f2d80388073821f82f799b39a70]);
  (1064660263146194700, [0x54a76df7]);
  (1065264494591791000, [0x57a358e48ca98d298df58e10]);
  (1065872399199429100, [0x524c5c41620d8b938ba99a0e9a91]);
  (1066484021901172800, [0x52fe53d96302639b6558]);
  (1067099408458610700, [0x4f705f5d9102]);
  (1067718605483402800, [0x4f83504f589960bc60fa627064fe66146e106f3872468eac9b41]);
  (1068341660458466400, [0x4ed74fc360b67fb28b288c1f95f79edd]);
  (1068968621759826000, [0x680f6b04747e]);
  (1069599538679152300, [0x5ae96631]);
  (1070234461447018300, [0x62d87fc18017]);
  (1070873441256895300, [0x51cf54355e9760b262c266f96e1b725f7a837aca]);
  (1071516530289924400, [0x558370d87405746f7e697ef3]);
  (1072163781740486100, [0x51b568636a946cc17e5e7ed580a2836b852d]);
  (1072815249842605600, [0x51bb51cd68c96b3a6c8178027e7d7f2484d38549]);
  (1073470989897221500, [0x7b528dd1]);
  (1074131058300356600, [0x5e8a680b682968df78978ed28f69]);
  (1074795512572223500, [0x597859e66c76]);
  (1075464411387303000, [0x65a48170]);
  (1076137814605437600, [0x62128da3]);
  (1076815783303975500, [0x7a8d7ac5]);
  (1077498379811015500, [0x52a353ed57e06f1375af760b795a8346834a]);
  (1078185667739791700, [0x5f1360946ee56feb888193949555985b98a0]);
  (1078877712024249000, [0x54bd626962b164f46d177a3b]);
  (1079574578955858400, [0x560e62bc6db271647a579b44]);
  (1080276336221723000, [0x5524559a574e6789]);
  (1080983052944032300, [0x5382575b58c75a675ee066ae758f]);
  (1081694799720918500, [0x634964d26daf76fc7aff9811987d]);
  (1082411648668780000, [0x5be55d6961c868f5723d78b078b37de07f14]);
  (1083133673466128700, [0x4f7c538c53ad54b8593876828a798a87]);
  (1083860949399036500, [0x4f605ba05bf561c262b9]);
  (1084593553408243800, [0x6ce1]);
  (1085331564138006000, [0x5374537b5e7d68cd6a80701a82b896fe9727]);
  (1086075061986757900, [0x5fd1616e642d7fa17fa882a6831c8606865190d1912d]);
  (1086824129159673700, [0x6714679a6c30811381bf]);
  (1087578849723212000, [0x598d606866157a3d7d5e7ede]);
  (1088339309661734000, [0x4e1459dc63a977e9]);
  (1089105596936290800, [0x604d67266d95704c96cc]);
  (1089877801545681800, [0x6bc283388f429ad3]);
  (1090656015589887300, [0x574a6ede6eef777f7ad68c4e]);
  (1091440333335990000, [0x518955b35de16ee46ffe79bf79c3]);
  (1092230851286701200, [0x54c763d6732a786b7c9881658c6c]);
  (1093027668251619000, [0x5bd07bb1922394999e92]);
  (1093830885421345300, [0x519957cb5beb5c946cb1895f91d793e2948a955698109884]);
  (1094640606444607300, [0x72c872fd7a917aaf7d687ed27f7584c4853c85f99a82]);
  (1095456937508523300, [0x52cb52f3644a65246ca5701d7275727d745b826e]);
  (1096279987422175000, [0x6043633d65f16735733f7cdf]);
  (1097109867703644400, [0x561b5a20617062e864a570bc70bd714971be75997b1b]);
  (1097946692670696000, [0x5a055a6d62fc931a94ee]);
  (1098790579535282500, [0x59dd62966a316afb71267a20835085a6]);
  (1099641648502073500, [0x5e8762a2643667277d097eab80e78a6d8be193339530]);
  (1100500022871212600, [0x65a1669168a2776699a8]);
  (1101365829145524000, [0x53677ad981e5]);
  (1102239197142399400, [0x62ac6fe17c27]);
  (1103120260110615000, [0x5636566a576a65a77f508ca28d21907595bb960e]);
  (1104009154852339600, [0x4f30607a61376bb7777d8292]);
  (1104906021850615600, [0x4eab53db635067f46d597fe99685]);
  (1105811005402607300, [0x64bc68866c706f3172f87624770879bd869588368efc8f769be89cb89d289e2d9f9c9f9f]);
  (1106724253758934800, [0x53e85c4f5c6f5f8860eb618a77368dc48e098e4c]);
  (1107645919269427100, [0x532063fd6500652c6c8282df83098e8792c194dd]);
  (1108576158535658400, [0x4e384f1e509853a554d756295ac263aa]);
  (1109515132570642300, [0x5939593e60f473ab762678f782af8ab08c018f038f83]);
  (1110463006966096700, [0x51a4626d6d476da86f326f8676d776dc7792779e819b83c187008eb28fd99019]);
  (1111419952067711800, [0x59fb5f6d65a965ac6cfc6dc76f51730e73758e66981c988c]);
  (1112386143158885500, [0x5384557c5c3a60e761fc665266ec727a72a78a368bc399529976]);
  (1113361760653422000, [0x6cbe78c586e48caa8d2a92ae947e]);
  (1114346990297723000, [0x556a5e1c5e5f620e6c4180428076864f865c9119]);
  (1115342023383040000, [0x620a8f4e8f7f]);
  (1116347056968390000, [0x51955f6a621a6292764c77ee781678da8fed947d94bb]);
  (1117362294114791900, [0x516e59575d3d7bf78a728be5]);
  (1118387944131510800, [0x707c740f748977fe792c7b037be48a938d1b8d638e518ea1903e99d09a7b]);
  (1119424222835065500, [0x635e6488658b6d516deb6e3e732b766b767276938c939f4b]);
  (1120471352821795000, [0x67006d466f3f87039a199a379a979a9a]);
  (1121529563754848600, [0x517d59da6dfc737877e27c4d816e82058e7690919d269e2f]);
  (1122599092666523500, [0x52b152f563d268176986772884718525]);
  (1123680184276945000, [0x502169886a1f6ada804b807e8574860a993e998f]);
  (1124773091330164100, [0x63986444651d7e3e7ee991e7948f]);
  (1125878074948822600, [0x520a627c679574f7]);
  (1126995405008635100, [0x4fd0526952ff5df75e995edf6c936d127051709975ae762183ba964796b496d59daf]);
  (1128125360534028400, [0x72c27c417c5f8aa48bef93a294a8]);
  (1129268230116390700, [0x51f85f6462ec63a07a3f7d8f7ee59716]);
  (1130424312356498400, [0x592d5e376d3c701b7aaa7ade7af67e377f158d74]);
  (1131593916332817400, [0x61016512652269d06cbf789183bd97cc97e7]);
  (1132777362097517800, [0x532a558b56327e2b7f1d82cc84078934896490aa976197dc97ec]);
  (1133974981202189300, [0x50bb533f56a356c25a755b0b628465386627778c7aa67ac7851a964b98179887]);
  (1135187117255423700, [0x5a745b306e836f70781a786f795c81ed9a5f9a659aa49aa59df99e70]);
  (1136414126514605100, [0x632866a271e57545810a8461854a9f10]);
  (1137656378514461000, [0x525455675616575162ab67af80f182359012905e929694e2]);
  (1138914256735146900, [0x668767d082d1]);
  (1140188159312889800, [0x4e484f345e7a61cb659f739174a3846398e29965]);
  (1141478499796480700, [0x50f355895ced6cd76f58718f7c0c839e93829541959895f8]);
  (1142785707953216000, [0x5440596265778fc59699]);
  (1144110230628218000, [0x59ec62936cd36f8d794e79958fd491e39493]);
  (1145452532661432200, [0x4fde5076681375c777917a1a85fb]);
  (1146813097867010000, [0x4fcf5c615c6281fb]);
  (1148192430080243500, [0x514053ea53fd56306b836ce36d8e7c7d7dba7eee823686ee8721881f883b8a1b8bb9]);
  (1149591054277717500, [0x6d747409743675258446]);
  (1151009517776913000, [0x4e4d4f914fa7507450855c8c5f7064de64fb67ab695369827cb183548a508bc88dbe8f1b8f86968d]);
  (1152448391522123000, [0x4e1156bc64876572686669df6a3a6ab376ce7e6d83278e2a8e74919c]);
  (1153908271464238300, [0x4e3254fc57ab588a59e35b245b3765e866f068096adb6d4a6fc170ab811688228cc48d3f]);
  (1155389780042752400, [0x50a35520562e56695f0b626e68fa6bcf79d27f54807f9739]);
  (1156893567779206600, [0x522e56b7696077fd78458cbc8d34944494f898219889]);
  (1158420314992285300, [0x4f3856005e1665a573298b028c138d138d438f458f95]);
  (1159970733645881900, [0x50b25a55640f664f68ad7460796f798e7f8c]);
  (1161545569342695700, [0x627e6db56dd870c1720d818a87e08aeb8c0f914b9706]);
  (1163145603477339800, [0x51ed5349540f548e5bb46191649064916c2e711a713171a083f191dc92ea94fa]);
  (1164771655564517900, [0x52c953235379561f574057a25a2560646d31722c73c27bab7c2b83049171918791ac]);
  (1166424585759639000, [0x543154aa5958599e60f966e66eaf6ed5783b793186db874987ec]);
  (1168105297591277000, [0x53a65ae35ec8621b626378d57a7f888588ca899389c58ce68d4b916e970e]);
  (1169814740927207100, [0x4fd160ed6151615a61fe62e363c068d5699570db71ed8ecc8f68]);
  (1171553915198394000, [0x515c5385555555d35ed65ef3634f6355672d6b4677f678ef925b94c595a895fa96cf96db9d619e49]);
  (1173323872908334100, [0x5242529153f5578458df5b5a5bc262bd7076776b7b3c7c6092c5950c]);
  (1175125723458601900, [0x4eff50fb54d35635607361c77a847adf7e467f2a80e58a858bdb8ce48d3197ad9abc]);
  (1176960637325421600, [0x55a75b9560da62486d5a716676f27b2881518a738aed8be68c159701973d]);
  (1178829850626636900, [0x54125436545054a45deb62f47a977e8f7f20810684e58af18bb38e4a93a39a559a84]);
  (1180734670123706400, [0x507b50c25ac166dc6d436d7971ee73ba748774bd79fd7a627b7e7c3d80eb811b868187fb99d29a79]);
  (1182676478709416500, [0x579258d85ae65c9061d261f664ce67c48270827182b98ac48c068d8b8da8]);
  (1184656741439034500, [0x5154626f62c666ff6846695e6cfb6ee67009706473d174cf7e107ec983988521859b868c88458d668d768d9591c1]);
  (1186677012170786400, [0x51ff5b7d5c39621f6ea570e8710971c174a77960796d7aa57aba7c9783a08d168d4e90b59177947f95a995fd962196bd; 0x96cb]);
  (1188738940891060000, [0x50555bdd5be26e246ee97058739675d57afa80e480fa9093912795d096179a419a9c]);
  (1190844281810843200, [0x5f57630967726de6775b871a88548d5f919b91ba929c97989a629a749e93]);
  (1192994902332939600, [0x6096612361f56f0f748b819d83438682879e8caf8d2e]);
  (1195192793004817100, [0x50d6567c58a95d997e0880da842685d3861a874e880d98bc98d59a4d9a81]);
  (1197440078590023000, [0x59965a096089638975f975fa769679ba7e397f2582d4831788ab88e8891a93d8953599a5]);
  (1199739030412492700, [0x4f9756015a135a765b38610e62b56320649368e06c746dc5704f705d75bc7e937f2883e98cc28d428fdd90559ed4]);
  (1202092080153512300, [0x4f434fc14fe3531d54d1555e59835c7962d0665768676a9c6da76f416f977d027d627ea37eda849c90f891329176961c; 0x986b988d98a4]);
  (1204501835311418200, [0x62fe68a76a907bf17c377c6c83c78f468f9898fc99729aef]);
  (1206971096570455300, [0x4f3d50f55760589c5e3c5e575e905eec60e961f262e2650f65d6664c6a446c406e176ef26f7c7551789f78fa79be82c7; 0x84668fab8fae9175]);
  (1209502877368884400, [0x501c510654c65a345afb6c5c731c74ee75157b5d7b8f82f9860b9dfa9e6d]);
  (1212100426009210500, [0x4f465352536f5ac960bb682a69776dd66ee2700576d279e77aa87e1b7f1a84b2855989259753975a9a2b9a9e]);
  (1214767250717426500, [0x5319547155f75eb56dc67422755c8155829c856a88e489328ab28adb8bfe8c008d7392f8952f9c329ccc9d099d1b9e26; 0x9e33]);
  (1217507148136238000, [0x51af549259a55c7f5dbc60e86158675e69fd6bd66c7e6cfe6d876f2a726172f07319783e78ec792b82ad85e986df8782; 0x901e99ae]);
  (1220324235832907600, [0x4e104f6550c954c95b7a5cd25fd2632464e0680e6adf6e896f6671a87280728a72a2835f858888598e6d90b199c19a73; 0x9b919c8d]);
  (1223222989520232900, [0x52fa5364565c56955bc75cb15ce55d225e1b6862693069686c506e0d6e1a6f2c7fb984518d088d6097de97eb9e75]);
  (1226208285835201000, [0x541356875b625bd35d4c5df36020629162cc6cbc722a72fb73c075a1760d77387b197caa7cde7f3d7f7283318b2c8c2c; 0x916c93c894b594fe9dbb9e58]);
  (1229285451701876400, [0x4ea24f0e52fb530054bf56275c9163c96405652a6775683d69ad6fa1707879407cfe7d797ea07ee2817b81a985138c82; 0x900593ac95509905997c9b139b229d729e4a]);
  (1232460321533334400, [0x54af54e757775b095f0862416323636363996417655670f77d5d7ed480db81fc828a846d88728f128f8490a29a169a9b]);
  (1235739303815633500, [0x5a625d145ebe5eff5ffe613e63086c556d786e237838794882de851786d9923f94bf95b196059edc]);
  (1239129458983201600, [0x4edd4fa6501a507552ad549a5564563156d15d2e636d69796f02714e74d274da7cd97e1f7f1b84ba9b779c7f]);
  (1242638590964328700, [0x532e5331588558d15ad65cb76055618e69ff6b7974e37b6080c3888d8d0f8d62914994729576965f987098a69b3b]);
  (1246275355381416200, [0x50ac56d462ef63b764f26cf16da96f5e6f806f8870fd742c768e7691769a7db87eb682fb877487f98cec8d2690dd9214; 0x949e964996559658965d99dd9a7c]);
  (1250049388179701000, [0x57ae5d035d0d62d26da36e19716e72b87341749e7e82837b840387188ce08d549e1e9e3e]);
  (1253971459495029000, [0x4e5e529d52f8551158245ed3671567d86cad6ec77184741b748178987a1e7cbc832c860588c689608edb8f6d918b962e]);
  (1258053658947054600, [0x4ec34fce502551b4566c595a5cd95e195e615f2762c868e3695d6d3d73cf753a7c0780868110818081cd82c18475848b; 0x84ef852387139245926c949c94bc958f95f098af98d29b8e9c879dd79e25]);
  (1262309620388934100, [0x54e854ee56185653583558895b705c825c965d875fad6252632164cb67ff733773ee7b337e097f1983a885b08c489163; 0x929394e8978b]);
  (1266754796646017500, [0x4e564f7651c4554a60af611a61ab66f369056d9d6dd26f8770117023715e7629763e766e777e782d7d467eca7fd87ff9; 0x80ba82ae834f88d48a528adc8bd28c0d8cb68d2c90ba9134916593d794ff959495f598039812987798819a5b9a7f]);
  (1271406798209506800, [0x52d853df54bb560c564e594259505fff6177631b652365c368d86d606ec26ed375b176b07729783079e97d737edb86a4; 0x88f98aa68bf5914a91e992ee949294d69a4a9a859ab6]);
  (1276285814626449900, [0x4fd8544b5cab5dfd5ffb65bc68406b896ce06d947430765c7779789b78d078e77f5889b289d08f9c915a947094a595ad; 0x95cc95fe9611962a]);
  (1281415144065205000, [0x508051d153ae541d549b5506556c55c755f2568056da56f9573b579b58f658fa5a045a405a415edd60296109642c65f0; 0x65fb673d68546e4a72f27317733b75eb764777eb77ef7ce07dbb7e9c7efd7f067f9a83c5868a8b178c24925e934794ba; 0x953495d5961996f397429bab9c9b]);
  (1286821866192232600, [0x547b576f5ce65dd26247631d634d64be655e65cc686868b369f36d046ece70e471197322742e74e276d4780d7b207f30; 0x7fce836583ea89368a6b8be78cda8d498e7f8ea592c794a1970f97a097c19ee2]);
  (1292537707576227400, [0x5088528854ea57a0591f5920606c6b206d2e710a73c975e27c3f7dd87e477f0485af86fe88828af78b598bbd8c2f8cc1; 0x8d329017919091ec943a948e94db977498469865989798a29913997f9b039ee99ef7]);
  (1298600169757871000, [0x4f645310580058065c3b61a8631e64bb66a86804694269fb6bc06bc16bcb6e4e757f76f97d137eae7ebe801880be814e; 0x81fe834084df858a86d087c68ad28b208c058c238f268f87904f9bc99ca49d239d609e2a9e449f779f8c]);
  (1305054021871628000, [0x548054cc575f58b3677c69ca6bfd6fc2714a73fa787c795b7a237a4c7a9f7fe5800681c6830e8396853785948a618b0a; 0x8be98c0e8dd68e60937e953a96a79a439aa09d069e29]);
  (1311953309020323200, [0x4fea4ff8502a5137520d525d52655527577357a658be5a085b4c5eb65f87619462e663b8642164a3651465ec67a368d7; 0x690169e8708573607428768b77377a377e437ef78037808b814b82bb84bf867d867e872e876689218b5a8c2d8cc38d41; 0x8d678ef28f7196d6972d9744]);
  (1319364106235695500, [0x5121526a5482558656f55707581558ae59925bf060b163a363e164c2655b658267da67ec68da6a796ad36c136d9f6e34; 0x6e3a6f2372f17344761f789379e37f6983d68a988af38b168bf18c198c218e528e638ecb8f679095922692bb930193a7; 0x949b94e09511951e9be49c139cb29cc3]);
  (1327368377003049100, [0x502c54b355d455eb568556c1570357c25a0c5a1b5a315e1a600f622e631663966414641c67ad6808689f68e76b846c5b; 0x6c5e6de56e0c712f719471ce7750775e79017a887d5b7ee6839383c0847a87078af68c0c8fe491c99227926494a994aa; 0x966a9a449aa2]);
  (1336069514702012000, [0x504351f95421542d55435729585a5ba55de95f1b65ce663669bb6a3d6c8c6cee6cfa6dc46dd96e866fd26ffc701573c8; 0x747774a674a875b976b176ba76ef7a957abf7b5b7be981488334865087a887ce8ae78c108ce18d538dfa8efb8f618f72; 0x8f9493c3943894ce955e97139776978f9826988f99ad9a019a6d9a8b9b459b4d9bea9cae9d3f9e3d]);
  (1345600532682444400, [0x50f153e955d6577b589f5a295c995d585d5b5db45db8606a622162f763826600664166666773678b696b69db6abb6d4f; 0x6de46df96f626fa76fe0700f709273e9743575cd76c2772d776179507a9c7ac47afd7b3a7b4f7b8b7ca57d3a7d817e88; 0x7ec07ed17f2c7fbf82a9830f843c8622886e889e88f48a5b8a638bc58be38d07908b916f935b953b958695eb960b96c7; 0x9708983998939b299bc19ca09ce99e20]);
  (1356136584248227100, [0x4ecd4f095417543c54a655ce56085693587e59f55a235c155ccb5d4b5f505f655fd6603f60636079610d61cc61e865fc; 0x668467e06ab86bd76c726cc66d5b6f4b703271b371ca71ff748e74d4759f76007627767877f8798079e47c2a7d337e73; 0x7ec57f347f38800b80438129824782d382e7853a853b858f85fa889c88d98913896a898c8a608aa88afa8bf28c1a92c6; 0x92e593b0946094c4950395529577965b97e197ed9c529cdf9f669f88]);
  (1367914887813865500, [0x4ede4fa95009501e502d50375108518651cb52df548b549654a856d756ff57dc581158795919597c599859eb59f95ad4; 0x5b2a5b345b3f5bdb5cac5d6c5d8c5dfb600d63ed6458659365956619669066c76777686068c2690f69d96afa6b876ba4; 0x6c326c336eb46f7a73a2754a7554759a771e77257726783a78b4792a7a327cd581b382048238828b82a582a882c883e0; 0x859785f685ff8709873b88d88aee924092499266927b9315943294b294be94c994ec951f956f96c99a6a9a8a9b479b58; 0x9e1a9e66]);
  (1381268027076317800, [0x4fc55191520152d057ad57e159605a325aa75ba65d2d5d845e62632a64b0687668b5695769a86a7c6ade6d356d9e6dcc; 0x6df66e856fee6ffa72de7370749c75a575f076cf76de797779b17aa07f427f4c80c480dd86a88b4e8c328cfe8d5c8d84; 0x8d948e1e900d91509210938f946394a49573969897d997ea9ae69da99e5c]);
  (1396683095059043500, [0x4edf4eeb4fdf4fef5028530f53155395542755fd58f95acc5ca25ce45da05ec16014623364846516662869786be16c08; 0x6d546dae6f3e6f6f74e4753e756c757275c87670778578097a707f9480b1812f82dc835a836083a2849785ba85c985dc; 0x87478760880588f38c798e3d8eba8f058f82908090b9911291d492579354942e948794b39537957095e196109730980a; 0x987c992e994b99889a649aa79df29e6b]);
  (1414915250738439000, [0x4f8451fc52be53e6543b549d565d578658da5b935c7a5cc15e105e335ee95eea60a862d963ac63b064ae67b76a356c39; 0x6c4a6ca66da16dea6e266e6b70f9719273d9750475d276627719776877bf77dc783778be7f617faf80718306832f835c; 0x8367837c8392843184fd8543859c8708874887c8886c896f8acd8b018b0e8be48c128c1c8d818df78e228e7a90169209; 0x9215923e94a094ae94c097739ab89afb9b1f9e1b9e739f949f9a]);
  (1437229605869860000, [0x4e984e99539d540654205576567b57095a6a5b835c4e5ce85e4c5f0a602f610061a76229622c62e7631a6346634b641e; 0x646f647964f065c4675368556b8d6ca36cef6e3270437239729673b37410746374ef750c757475787587760c762a765f; 0x7784789a79b379c67a087ae37b777c387d067d837e987ea17ee17f357f817f88800d8132822b82e3834783668473852b; 0x852c85728604863887b588b488fc891b89388b108b928c178c278c4c8ced8cfa8d4c8d5a8e6c8e818fe58fe990449087; 0x90c5923793b594b4955395c895f1969796bc9c499cd6]);
  (1465997813115038000, [0x4e934fa34fb650265228535e54fa5549555f55dd572a5793579a58d55ab85d345db75e445f955fa060056042608c60b5; 0x60f0612b6390655d65ab667e668266ab67106869691f6939693d6a016a3e6add6d0c6fde6fef709570ca7230724d7258; 0x736d737a73e7746d74ba75c975d875d975de7620768877a777e378cb7b067b0f7b507b957ba97bd37c0d7c6e7fa77fcc; 0x809f816d81ba82068231825983b383d483fd841c8438849484a184af84fc866287fe89838a258bb78c558dbc8dce8de3; 0x8e2f8e918f3f8fc2900b916a925192e4931b943e94c29504951b958e95ac95f3960698f4994599749980999299f19a86; 0x9b48]);
  (1506544323925854600, [0x4e5c4eb54ec94ee14f5750a7511052405243527452d652d752f054a354e954ff557b55b155e555ea563f56e1575c5768; 0x586c58e258ec592f59b259d25a115a3c5ada5af15b195c345c375c495c5c5d1f5e275e405ea55f995fdd5fe45ff1607d; 0x60f262a062a162d76376637b6384642a646764736760676a67b867d167e267f06800683e68646894696369ab69bf69d3; 0x6a176a286b126bb46bc66c056c166d196d336d636d6f6d936dab6e0e6e4d7006709470a470d970e971f47238723f726f; 0x735074557480749f74a074a97579763f766d7699773a78d479497a027b257dec7f057f9f7fa57fe1809880ef80f08188; 0x81e78202827d82d5836a83aa83e5840e841184c084c184ca84ff857b86a386ce8759881588238902893b8a078a168ac2; 0x8b9c8bab8c048c208cb28d408d9f8dec8e148e1d8e598eeb8f4d8f788f999088909790a190b390e6913191489230926d; 0x928e9291931993209328942b94bd94c894e3951a952d9531954c95a1960298c698d99921994c9985999499979b2f]);
  (1575859041981849100, [0x4eb64f0b4f5a4f5f4faa4fe84fe9500650225044504e50725115513c514c515151565157519751c752bc533e53c153fb; 0x5429546454b454d255bd55be55dc55df560d566056b356ef57a457ed58035807584d596d599759a959af5aaa5abc5ad2; 0x5ae15af55b165b215b5b5d1b5d475efc5f2d605a607f615c61e661fd625b626a62bf633963426369636b63b463c66420; 0x643d6451648564c0654965ee66076609663a664566dd67a767c367d267dd67fd684568496877689868f0690b69246966; 0x698769a769c169cc6a506a896aec6b0f6b396b496b7f6b816ba16baf6c696c6d6ca46cd46cde6d076d276d486d5c6d61; 0x6e1f6e256e436e5e6e5f6e6e6e9f6edf6f1a6f466f786f8c6fd870207039706970c370eb70f470fa7113719871b971d9; 0x71da726e739973a573e373f274077432743f7441749874b5755b75a476bf774e776c77b378a3797e79c479c879ed7a17; 0x7a987ad17b157b1e7b677b907b947bb47c7c7d077d157d1c7d317dd77df27df97e447e7b7ea57ead7eb07ec27f037f07; 0x7f087f5f7ff1801c8046808480ae80bd81c18210823e82588284828f829082b082c482e082e1832d833383518369836c; 0x83a983d883e18401845984d18539855285b785ce8611861e869c86a186c086c686d4879f87d288168869887f888688b1; 0x891889308aa38ad78bec8c028c418c478c788d058d0d8d588d618dda8de48de88dea8f548f9a901d902190529068906d; 0x90a090b090cf90df90e290ef90f4917f91ae91c091d091f99200920192049278928d929a92a392ef9306934d936c937a; 0x93a693d193dd93e493f093f593f994279433949594ab94ad94af94da94e794eb94f094f79506950f9516951795399540; 0x9542954f9558955a955d956a956d95b69604960a964c9668969596b99702977c97a3985398719885989b98ea98ed9903; 0x990c996a996c9975997a99b19a4c9a6e9aaf9b2e9bca9c289c3b9c489ca89cce9cd59cd79dd99e1d9e379e429e889efb])
].

(** prob_emit.go:20722-35242 loadDefEmit, state S *)
Definition emit_S : list (Z * list Z) := [
  (224017668005884250, [0x7684]);
  (352336181351361730, [0x4e86]);
  (362656137688887700, [0x662f]);
  (371722048013088100, [0x5728]);
  (398696925819957930, [0x548c]);
  (425822570697078900, [0x6709]);
  (431259830656673000, [0x4ed6]);
  (442038170980456350, [0x4e0d]);
  (451183041199714550, [0x6211]);
  (456053406393306300, [0x4eba]);
  (457778886358186300, [0x4e5f]);
  (461720748425684100, [0x4e3a70ba]);
  (469748618146119800, [0x5c31]);
  (473985828777147000, [0x8fd9]);
  (475405378208471150, [0x4e0a]);
  (479172452136581500, [0x5e74]);
  (481355762044073000, [0x4e2d]);
  (484957824205477800, [0x4f60]);
  (491460938125120600, [0x8aaa8bf4]);
  (492368982120877000, [0x4e00]);
  (498273275143832000, [0x5230]);
  (499528311574460100, [0x90fd]);
  (502962689544025300, [0x7b49]);
  (506786123229938800, [0x7740]);
  (508881265478699300, [0x5bf95c0d]);
  (522289342867502900, [0x4f866765]);
  (522609978210496700, [0x4e0e8207]);
  (522885540160780150, [0x5730]);
  (525078959939039500, [0x8fd8]);
  (525383131529797250, [0x8981]);
  (529178856118291200, [0x53c8]);
  (533690419991289700, [0x5927]);
  (534293208836393000, [0x800c]);
  (535894988394101500, [0x4e4b]);
  (536187704107791950, [0x9053]);
  (539397076935189200, [0x4ee5]);
  (540599671024629200, [0x5f97]);
  (540930380339349400, [0x5979]);
  (547479626168386500, [0x4e2a500b]);
  (548074839865038600, [0x540e]);
  (549195744447365700, [0x53bb]);
  (550088683833719100, [0x5c06]);
  (559293184239049350, [0x90a3]);
  (560049962604616700, [0x4f46]);
  (560297765068360200, [0x4ece5f9e]);
  (560504434769644300, [0x6708]);
  (562255501245886800, [0x4e0b]);
  (562466261168605900, [0x628a]);
  (563602557717060700, [0x88ab]);
  (564230666870105500, [0x4e8e65bc]);
  (566556519292393200, [0x65f66642]);
  (568790769888493300, [0x53ea]);
  (571329552464036800, [0x591a]);
  (572430637720304800, [0x8fc7]);
  (574418220508870900, [0x53ef]);
  (576551522320868600, [0x5e76]);
  (577377354446325900, [0x80fd]);
  (577973136190198700, [0x597d]);
  (578462754465237800, [0x4f1a6703]);
  (585483812120706700, [0x51fa]);
  (593869135765727800, [0x6216]);
  (594182514226547000, [0x65e5]);
  (594809675328226100, [0x7531]);
  (596289828850907600, [0x91cc]);
  (596899047085054800, [0x7528]);
  (597061087787491100, [0x6240]);
  (597694777695441900, [0x5411]);
  (602191656239468550, [0x5df2]);
  (604019992804249200, [0x5176]);
  (606636582189613000, [0x7ed9]);
  (607180661809774200, [0x5f88]);
  (610808475952063600, [0x770b]);
  (613833932152122000, [0x4f7f]);
  (616778414062178400, [0x524d]);
  (617022423592762200, [0x65b0]);
  (618181996531087700, [0x60f3]);
  (619084219248050100, [0x5374537b]);
  (619876289634611000, [0x5b83]);
  (620558818620823300, [0x6700]);
  (623046071572710150, [0x898b89c1]);
  (623523764599163700, [0x8d77]);
  (624749637836806100, [0x5c0f]);
  (625591551135336300, [0x9ad8]);
  (627355358147589650, [0x66f4]);
  (628089303135619000, [0x5982]);
  (629089562434375100, [0x518d]);
  (629255444804141800, [0x624d]);
  (629392685918555550, [0x4fbf]);
  (634836459307783200, [0x6c926ca1]);
  (638667973054698700, [0x8d70]);
  (638878357381266150, [0x505a]);
  (638920089876580700, [0x8b938ba9]);
  (639131005847083500, [0x51675185]);
  (639562178664549700, [0x53ca]);
  (648364482696128000, [0x542c807d]);
  (650341250205459300, [0x6210]);
  (650504038605385500, [0x5404]);
  (650588882765159400, [0x4e8b]);
  (650920016304110700, [0x53f7]);
  (652987361156053600, [0x81f3]);
  (653623129142901900, [0x53eb]);
  (654594886633679400, [0x4e245169]);
  (655334636813012700, [0x5f53]);
  (655691294002757500, [0x4e09]);
  (656481867920584900, [0x672c]);
  (656543488058098900, [0x65e07121]);
  (657023527002734800, [0x6b64]);
  (658867528718621300, [0x4eec5011]);
  (659329625510932300, [0x5bb6]);
  (661152486951035400, [0x9577957f]);
  (661500650740598000, [0x5e02]);
  (662296012844521100, [0x95e8]);
  (667607497599510950, [0x6b63]);
  (668098599049770400, [0x540c]);
  (670193409237641000, [0x5403]);
  (672446932835134100, [0x5929]);
  (674338016630072450, [0x6bd4]);
  (674817851738196950, [0x7c73]);
  (674965957717990000, [0x5916]);
  (676132812028879500, [0x5373]);
  (676181847898157400, [0x5206]);
  (677237603397335900, [0x95ee]);
  (677401021199549400, [0x8a718bdd]);
  (678537714154536200, [0x6253]);
  (679816047752374500, [0x8001]);
  (680630171663201600, [0x81ea]);
  (680747880874710100, [0x526f]);
  (682946241319549700, [0x8ddf]);
  (683370069082013100, [0x7b11]);
  (683668131895826900, [0x5219]);
  (684561413283159300, [0x50cf]);
  (689194293759317500, [0x8f038f83]);
  (690634072382989100, [0x56fd]);
  (690677420888978100, [0x6b7b]);
  (690784205028334000, [0x7701]);
  (691932639410003250, [0x4f4f]);
  (692671625823842000, [0x4e07842c]);
  (693371562102348100, [0x56e0]);
  (693642606819088050, [0x66fe]);
  (694574547845437100, [0x5143]);
  (695319417283121600, [0x5462]);
  (695869437062060100, [0x624b]);
  (696613433018722800, [0x8fbe9054]);
  (696889872094679900, [0x5934]);
  (697462898772553900, [0x4f5c]);
  (697602201922257400, [0x8a728be5]);
  (697695178613263700, [0x5973]);
  (697877807444171400, [0x5f00958b]);
  (698864740499126700, [0x8def]);
  (699194684055459000, [0x7d047ea6]);
  (700418778996708300, [0x519b8ecd]);
  (703878684650602000, [0x79f07a31]);
  (703954831617921200, [0x540d]);
  (704412935110414900, [0x4e8c]);
  (704746377344890450, [0x6bcf]);
  (704892368380847400, [0x5c5e]);
  (705540368796900600, [0x8ab08c01]);
  (705718532212090400, [0x53d7]);
  (705963054835818500, [0x5e265e36]);
  (706215968338076600, [0x8fdb9032]);
  (706645438408252300, [0x5148]);
  (706727638236738300, [0x5e9461c9]);
  (706770722270853600, [0x5427]);
  (707573118017097350, [0x53bf7e23]);
  (707913321676047150, [0x5fc3]);
  (708298433814548400, [0x4f545360]);
  (708984981036825000, [0x59048655]);
  (709045078396353300, [0x533a]);
  (709257712124740400, [0x592a]);
  (710120899155820900, [0x70b9]);
  (711635244713543300, [0x6c34]);
  (711709303552558700, [0x5357]);
  (713010121431179300, [0x5f205f35]);
  (713298251915513900, [0x4eca]);
  (714480303748001100, [0x959395f4]);
  (714679384653281000, [0x603b7e3d]);
  (714734519629336800, [0x56de]);
  (714874614322284400, [0x5c71]);
  (714942609735214000, [0x8acb8bf7]);
  (714951112413562800, [0x8005]);
  (715454054399474900, [0x515a9ee8]);
  (715488243895085500, [0x6bb5]);
  (715633679800607600, [0x6cd5]);
  (715830783300875100, [0x8fde]);
  (716351113873452300, [0x7ad9]);
  (716705280010510000, [0x7b2c]);
  (717208447550799000, [0x5171]);
  (718790738238111300, [0x53e6]);
  (719038449250784400, [0x751f]);
  (720889029507201800, [0x5168]);
  (721056098834663200, [0x884c]);
  (721663507438029100, [0x5012]);
  (721759033635390500, [0x5feb]);
  (722306655138101900, [0x6d3e]);
  (722503618305549700, [0x554a]);
  (724907334795852300, [0x76f8]);
  (725128318970226000, [0x541755ce]);
  (726088432288293900, [0x7ecf]);
  (726250144570859400, [0x6309]);
  (726976308663783400, [0x627e]);
  (727351002862069500, [0x53e3]);
  (727360628890858800, [0x5747]);
  (728512793449293100, [0x79cd]);
  (729285073547445600, [0x5b57]);
  (730127671353292300, [0x5165]);
  (731227266978707600, [0x771f]);
  (731387491327024400, [0x62ff]);
  (731402525529864100, [0x57ce]);
  (731578091775958700, [0x99ac9a6c]);
  (732116742427684500, [0x5e725e79]);
  (732653235262206800, [0x738b]);
  (734166788725044500, [0x636e64da]);
  (735824012553137850, [0x56db]);
  (735829251035027000, [0x5b50]);
  (736333427303893550, [0x4e6666f8]);
  (738279262221817000, [0x4ecd]);
  (738936379743091500, [0x96be96e3]);
  (739919308724453900, [0x897f]);
  (740165190333456700, [0x4e1c6771]);
  (740845875840273600, [0x5c11]);
  (741998179322189500, [0x6b21]);
  (742154316085075600, [0x4e9b]);
  (742422547595437400, [0x932294b1]);
  (742484118782068150, [0x5317]);
  (742674669756050850, [0x6c14]);
  (744195203248196350, [0x8fd1]);
  (744223685973616000, [0x67406bba]);
  (744411875701534950, [0x6e05]);
  (744623298311073900, [0x5b665b78]);
  (745421579650058600, [0x5f3a]);
  (747278065010980100, [0x51995beb]);
  (747325068537109900, [0x65e2]);
  (747419141921281850, [0x82e5]);
  (747572200172154900, [0x5f80]);
  (747631131165669100, [0x53f0]);
  (747849478306207400, [0x539f]);
  (748364775445485400, [0x53d1767c]);
  (748418233912500500, [0x4efb]);
  (748549030601777800, [0x7f8e]);
  (748584732137323000, [0x672a]);
  (749457421477406350, [0x6768694a]);
  (749950922719710800, [0x5175]);
  (751513597026242600, [0x975e]);
  (751525854181372300, [0x9664]);
  (751728314448695100, [0x8fb9]);
  (751974271653177600, [0x4f4d]);
  (752301099557949100, [0x9c7c]);
  (752728199337517400, [0x660e]);
  (753219448032430200, [0x8a2d8bbe]);
  (753788324007872300, [0x5dde]);
  (753932619650713900, [0x76f4]);
  (754221837079601500, [0x5b9a]);
  (754335237205153900, [0x8d8a]);
  (754809126822928300, [0x8eab]);
  (755259821082505100, [0x91cd]);
  (755291636806104000, [0x58f08072]);
  (755597583886488000, [0x4e94]);
  (756630670812062400, [0x4f4e]);
  (756998995353692000, [0x5750]);
  (757225833650512400, [0x513f5152]);
  (757863732057810300, [0x6781]);
  (758867842216959000, [0x653e]);
  (759443335784775600, [0x91d1]);
  (760497030095246000, [0x7ea2]);
  (760705076880129500, [0x671d]);
  (760745394042347500, [0x7231]);
  (760805900279697100, [0x77e5]);
  (761021330550170000, [0x4e3b]);
  (761704342503790900, [0x60a8]);
  (762316922693286400, [0x583162a5]);
  (763077643217516400, [0x7c7b]);
  (763816469295391600, [0x65e9]);
  (764449140783835500, [0x867d96d6]);
  (764456115500490350, [0x9762]);
  (765896303377213600, [0x5225522b]);
  (766321775583377700, [0x521d]);
  (767933616059645800, [0x6027]);
  (768636593915645400, [0x578b]);
  (769829131002684800, [0x8bb2]);
  (769888028155237700, [0x90e8]);
  (770183035375606100, [0x9001]);
  (770301282377781150, [0x8fdc9060]);
  (770471507782465100, [0x53cd]);
  (771401747048696400, [0x6307]);
  (771603820237990700, [0x4e619109]);
  (772976701422334900, [0x65b9]);
  (773364814995019800, [0x751a]);
  (773922984429802400, [0x5b8c5e38]);
  (774284009517558100, [0x610f]);
  (774384098065775800, [0x961f968a]);
  (774569140524126900, [0x6d93]);
  (774723604564724100, [0x5f0f]);
  (775616432979205600, [0x5de6]);
  (775663234852134750, [0x62c9]);
  (776501567806767200, [0x82b1]);
  (776572403274685200, [0x7535]);
  (777331120262915100, [0x931b951b]);
  (777505806665920400, [0x6761]);
  (777744508243296400, [0x5251528d]);
  (777768409769124200, [0x795e]);
  (778095637803643000, [0x52a852d5]);
  (778439982488237500, [0x6e56]);
  (779180726616023700, [0x6cb3]);
  (780057355606524300, [0x767d]);
  (780621474340793300, [0x5b98]);
  (780646073578341100, [0x5e08]);
  (780654274669090700, [0x4ec5]);
  (780826653123431050, [0x6559]);
  (781106373585537100, [0x54ea]);
  (781246527778065900, [0x53d88b8a]);
  (781320806657394100, [0x56fe5716]);
  (781403403506890500, [0x5e73]);
  (784270082079855300, [0x5e9c]);
  (784312608127700200, [0x70ed]);
  (784355152267886700, [0x5236]);
  (784389200616870700, [0x671b]);
  (784619330699257000, [0x5c816b72]);
  (785450490961612100, [0x8f6c]);
  (785571024768714800, [0x5efa]);
  (785614107790362600, [0x547d]);
  (786184550132388200, [0x52a0]);
  (786993918808117100, [0x7ba1]);
  (787072593579429000, [0x573a]);
  (787256409115451800, [0x8dd1]);
  (787739438201975000, [0x7a7f]);
  (787792273708663800, [0x4f17]);
  (788065702765456700, [0x9ebc]);
  (788295608251814800, [0x9ed1]);
  (789033094379029100, [0x6015]);
  (789193751321831600, [0x98a898ce]);
  (789256298792932100, [0x4fe1]);
  (789641379643120300, [0x7f6e]);
  (789812005161593300, [0x6025]);
  (790343705598638650, [0x77f3]);
  (790388895169654850, [0x9ec39ec4]);
  (790624210691399500, [0x9547]);
  (791269638139918300, [0x53d6]);
  (791910079487245200, [0x5149]);
  (792093818629428700, [0x7adf]);
  (792989774375773000, [0x529b]);
  (793818958797722550, [0x6570]);
  (793950020415434650, [0x66f0]);
  (793996869795537300, [0x4eb2]);
  (794053118039262700, [0x4f2050b3]);
  (794222052851846900, [0x6df1]);
  (794976346452691000, [0x813881c9]);
  (795327140839441250, [0x4e708cb7]);
  (795460195411437200, [0x63a5]);
  (795631526121537400, [0x8336]);
  (795889073838658940, [0x4e14]);
  (797390256764026700, [0x529e8fa6]);
  (797973688990752500, [0x6587]);
  (797983441758108000, [0x5f85]);
  (798276467949415700, [0x63d0]);
  (798540927675516500, [0x7cfb]);
  (798678330778889000, [0x91cf]);
  (798953704674383200, [0x5fd9]);
  (799318758604528150, [0x5c3d76e1]);
  (799953366584575100, [0x559d]);
  (800602039085150700, [0x90e1]);
  (800632079640125700, [0x8f66]);
  (801577951051133100, [0x5566]);
  (801679104205620900, [0x521a]);
  (801962878592869700, [0x7d1a7ea780cc]);
  (803157440758381000, [0x79bb96e2]);
  (803249923938173200, [0x6545]);
  (803620714351662200, [0x8a00]);
  (803775617052125400, [0x6d77]);
  (803837645380383100, [0x4f53]);
  (803920409713682000, [0x5ea7]);
  (804013601540255600, [0x9152]);
  (804272924334820900, [0x901a]);
  (804532921361319900, [0x6ee16eff]);
  (804772717128626500, [0x5440]);
  (804835367229871700, [0x674e]);
  (804929416037681900, [0x4ee4]);
  (804950327790162800, [0x98db98de]);
  (804992164418740900, [0x6d41]);
  (805096832630097000, [0x5fb7]);
  (805769315988205600, [0x8db3]);
  (805959269612228000, [0x77a7]);
  (806107261182578800, [0x5408]);
  (806128420725611500, [0x53f3]);
  (806414513635980300, [0x7f62]);
  (807277736345821700, [0x4ea6]);
  (807889687367130400, [0x6539]);
  (808051351464418800, [0x5200]);
  (808278121174470000, [0x7834]);
  (808852741934847300, [0x9f8d9f99]);
  (809005081463765000, [0x9700]);
  (810122044456134400, [0x5bbd5bec]);
  (810320457219639000, [0x5fc5]);
  (810430856877573200, [0x75c5]);
  (810618816466327800, [0x968f]);
  (811051357483405300, [0x987b]);
  (811106947011770000, [0x5c45]);
  (811285041448869400, [0x5448]);
  (811899671533738900, [0x6c496f22]);
  (812236523413003300, [0x7fa4]);
  (812270271093170700, [0x7b97]);
  (812540663326410600, [0x62186230]);
  (812551945551277300, [0x773c]);
  (812845731073316800, [0x5b89]);
  (812936300534958900, [0x9760]);
  (813049627836299000, [0x85cf]);
  (813538404029610600, [0x843d]);
  (813652416127241700, [0x98059879]);
  (813869397883131600, [0x9996]);
  (814247383557378500, [0x638c]);
  (814638323459677600, [0x8857]);
  (814938312146634100, [0x943594c1]);
  (815331967859343400, [0x7269]);
  (815785430644405100, [0x6797]);
  (816030457311538400, [0x571f]);
  (816217548105119500, [0x83dc]);
  (816252666630502500, [0x73b073fe]);
  (816276085834356600, [0x7387]);
  (816522319176801200, [0x706b]);
  (816745625375254600, [0x6865]);
  (816816246847116300, [0x80a1]);
  (817028411000252100, [0x8c61]);
  (817158288815309100, [0x53e4]);
  (817181921097116000, [0x8df3]);
  (817394863328296100, [0x67d0]);
  (817715129303959500, [0x60ca9a5a]);
  (817750777810070600, [0x641e]);
  (817869698028628100, [0x836f]);
  (817893499052184400, [0x51b2]);
  (817976847273953000, [0x53cc]);
  (818012589217503800, [0x516d]);
  (818358754886964600, [0x60c5]);
  (818550257040043600, [0x9102]);
  (818586204557056300, [0x6389]);
  (818706123026877300, [0x7acb]);
  (818766136231583100, [0x4e714e82]);
  (818802161449625000, [0x54689031]);
  (818874250843591700, [0x51e05e7e]);
  (819018585725517000, [0x627f]);
  (819126973765272300, [0x6751]);
  (819901139963943100, [0x6536]);
  (820314866521476000, [0x534a]);
  (821110610452277500, [0x4f9b]);
  (822758829188412500, [0x4e5d]);
  (822796322158920000, [0x6d3b]);
  (823234781990702300, [0x6562]);
  (823310139944532300, [0x4f599918]);
  (823662563216785200, [0x737283b7]);
  (823713010941401600, [0x517c]);
  (823725626850079200, [0x5341]);
  (824079520040457700, [0x7279]);
  (825084809412665800, [0x8239]);
  (825366571894157100, [0x98029876]);
  (825674857302095200, [0x65ad65b7]);
  (825803590584549000, [0x4f3c]);
  (825932489803221300, [0x6bdb]);
  (826255466635881900, [0x8abf8c03]);
  (826475688241821200, [0x5434]);
  (826644420840748000, [0x5f62]);
  (826774409160104400, [0x7dda7ebf]);
  (826839466738353600, [0x5ffd]);
  (826943646979577500, [0x4e03]);
  (827335292388800900, [0x4e45]);
  (827439990736278800, [0x53f2]);
  (828070493284725900, [0x8f448f96]);
  (828189156361475500, [0x82f1]);
  (828215545067262600, [0x53568ce3]);
  (828360807555665000, [0x8840]);
  (828466585695899500, [0x753b8f158f7b]);
  (829103615056516000, [0x7686]);
  (829250174272677000, [0x6cbb]);
  (829490462734308000, [0x6743]);
  (829543938671411300, [0x54ed]);
  (829650976412430900, [0x7a7a]);
  (829784934905336500, [0x8bb0]);
  (830134069139397500, [0x7537]);
  (830295620063062900, [0x516b]);
  (830863112465665300, [0x559c]);
  (830890216409455100, [0x8ad68bba]);
  (831093730488245400, [0x4f24]);
  (831243237821564800, [0x67b6]);
  (831966741079954000, [0x5f526b78]);
  (832227390106044000, [0x9000]);
  (832337340639385700, [0x6e38]);
  (832530045447815700, [0x5b9e]);
  (832585172240832300, [0x5dee]);
  (832778355687141000, [0x59d3]);
  (832971913054358600, [0x6731]);
  (833207451784659300, [0x7f51]);
  (833554843226913500, [0x76ae]);
  (833722020752614800, [0x523a]);
  (833735964836859700, [0x7761]);
  (834281306326814000, [0x90099078]);
  (834759170904473000, [0x79d1]);
  (835182720881158500, [0x5173]);
  (835196870156031700, [0x5316]);
  (835211021433208000, [0x6d5c]);
  (835480276892414900, [0x7f759a82]);
  (836078058348006400, [0x5e95]);
  (836406935458619000, [0x9286]);
  (836765641632753000, [0x9662]);
  (836866310369233400, [0x542b]);
  (836952678591098500, [0x6d1e]);
  (837053535886587000, [0x673a6a5f]);
  (837472460298460300, [0x8272]);
  (837515897640777900, [0x963f]);
  (837530380948790800, [0x88c5]);
  (837733367824346700, [0x7406]);
  (838344812442959300, [0x99d09a7b]);
  (838490947205192500, [0x4ea77522]);
  (838886581100985400, [0x92ea94fa]);
  (839048215108697400, [0x9886]);
  (839801041750776500, [0x5757584a]);
  (839993848632901000, [0x600e]);
  (840216781028120600, [0x5c01]);
  (840350779410413000, [0x8ac78c08]);
  (840365679209293100, [0x8bf8]);
  (840455124653539300, [0x89ba89c9]);
  (840484957589321400, [0x56e2]);
  (840783777474010200, [0x8089]);
  (840813708632569500, [0x671f]);
  (840873597839330200, [0x5c9b]);
  (841038478338348700, [0x4ee3]);
  (841098502349754700, [0x77ed]);
  (841203631142195900, [0x65e7820a]);
  (841218658567275000, [0x5634]);
  (841233688250928500, [0x6302]);
  (841308870571588800, [0x7559]);
  (841429279978069300, [0x6c11]);
  (841882110940543900, [0x654c6575]);
  (842291419478329600, [0x4eac]);
  (842534765606019900, [0x8bd7]);
  (842977345496701600, [0x613f9858]);
  (843023241619285000, [0x5893]);
  (843207037045507600, [0x4e16]);
  (843467993521787600, [0x4e3e6bbf]);
  (843668008974268500, [0x5e2e5e6b]);
  (843698816121770400, [0x6293]);
  (843822139707617700, [0x6362]);
  (843837565854968000, [0x4ef6]);
  (844100175104521400, [0x6c42]);
  (844223994962470500, [0x811a8173]);
  (845001362061215000, [0x623f]);
  (845126303511171200, [0x6b91]);
  (845737638591700300, [0x5bab5bae]);
  (845847762098463800, [0x4e9196f2]);
  (845894995036443500, [0x98df]);
  (846052599481990000, [0x932f9519]);
  (846068373596700600, [0x725b]);
  (846084150200030600, [0x62dc]);
  (846194656170704500, [0x98ef996d]);
  (846305284392180800, [0x63a8]);
  (846431866687564000, [0x72b672c0]);
  (846733143376242800, [0x590d]);
  (846780796462682000, [0x53e5]);
  (847162840862420600, [0x514b]);
  (847194743877526000, [0x6551]);
  (847562361969149300, [0x697c6a13]);
  (847610411942044600, [0x80dc]);
  (847834950929728300, [0x5177]);
  (848043903830636000, [0x6597]);
  (848140491088628000, [0x5c425c64]);
  (848705783718906700, [0x96c6]);
  (848754386393010500, [0x8457]);
  (848803012700800600, [0x7247]);
  (849258002110998300, [0x5954]);
  (849453633083074400, [0x7ae0]);
  (849584266674480000, [0x5c465c4a]);
  (849682353980039200, [0x6728]);
  (849960791634335600, [0x602a]);
  (850190676793046600, [0x6c5f]);
  (850833871885854000, [0x62b1]);
  (850949756345474600, [0x804c8077]);
  (850982890871954000, [0x62cd]);
  (851132132256092400, [0x4ea4]);
  (851281596703082000, [0x8868]);
  (851331467870269700, [0x964d]);
  (851398001472191800, [0x75308425]);
  (851447930740101100, [0x4fee]);
  (852015544951886600, [0x8003]);
  (852065783586452400, [0x545854e1]);
  (852300564844727200, [0x928094f6]);
  (852535898622862000, [0x6b32]);
  (852569562989448000, [0x4f55]);
  (852670624140040400, [0x505c]);
  (852721193041244500, [0x754c]);
  (852856168597420700, [0x89e3]);
  (852923724756044700, [0x8349]);
  (853925515968011300, [0x5249]);
  (854147605407550000, [0x7d2b]);
  (854284521396763500, [0x5218]);
  (854353049753051500, [0x5584]);
  (854507410473179300, [0x9999]);
  (854558917041405200, [0x535555ae665a]);
  (854782419240521400, [0x5428]);
  (855144519817216800, [0x4e9a]);
  (855213640262339500, [0x62a26436]);
  (855230927841257000, [0x5f04]);
  (855334716122499100, [0x5217]);
  (855646728856123500, [0x8cea8d28]);
  (856011978414281000, [0x94dc]);
  (856081701268770000, [0x8a5e8bcd]);
  (856203833361069000, [0x53825ee0]);
  (856221292985731400, [0x6696]);
  (856308636864111600, [0x611f]);
  (856396057098720000, [0x51ed6191]);
  (857133419990156800, [0x8ffd]);
  (857186297403920800, [0x7d277dca]);
  (857256844144060000, [0x984c9898]);
  (857292136186071000, [0x81e3]);
  (857309786878906400, [0x6cb9]);
  (857398087105394200, [0x8b808bfb]);
  (857574921811068500, [0x7403]);
  (857610326307809400, [0x5b88]);
  (857663456566741000, [0x4fc4]);
  (857734340851119500, [0x529f]);
  (857769801844399000, [0x7aef]);
  (857858509381485300, [0x6563]);
  (857965062401689200, [0x4e49516c]);
  (858178509654552500, [0x96489673]);
  (858249760102882000, [0x653b]);
  (858374570674491200, [0x793c]);
  (858785762815490400, [0x9752]);
  (859360683551069100, [0x5f15]);
  (859721694773479200, [0x6295]);
  (859938928747394000, [0x76ee]);
  (859975180333797900, [0x68116a39]);
  (860047722955767700, [0x5bfa]);
  (860757785110725300, [0x5c97]);
  (860977284009901700, [0x58997246]);
  (861068884272787300, [0x98179887]);
  (861472925226487800, [0x5c1a]);
  (861491329569965000, [0x51e1]);
  (861786260659327200, [0x90a6]);
  (861860129545419400, [0x6839]);
  (861934053037974500, [0x672b]);
  (862434471096432100, [0x67aa69cd]);
  (862732201126560300, [0x8fd0904b]);
  (862825423842363500, [0x503c]);
  (862974761185779100, [0x6e2f]);
  (863105614555230700, [0x54cd97ff]);
  (863593145991548100, [0x52bf52e2]);
  (863705991593141300, [0x9b3c]);
  (863988663975841000, [0x6279]);
  (864177557118519200, [0x5305]);
  (864328928954423900, [0x66ff]);
  (864518466539596500, [0x53f8]);
  (864556417204188700, [0x5377]);
  (864727373651941600, [0x65c1]);
  (864784424143172400, [0x590f]);
  (864955771162724800, [0x62db]);
  (865070165836782000, [0x6b66]);
  (865280229888056000, [0x5192]);
  (865586567481630000, [0x65cf]);
  (865797720261877600, [0x8cbc8d34]);
  (866009319840685300, [0x786c]);
  (866511251396398700, [0x5229]);
  (866530606859538600, [0x575b]);
  (866957377633371700, [0x51b7]);
  (867035168380196100, [0x7389]);
  (867054625525894300, [0x817f]);
  (867093551178390400, [0x7b54]);
  (867444565579358900, [0x4fdd]);
  (868288121341689300, [0x7167]);
  (868781851978312000, [0x5047]);
  (868821455939225600, [0x677f]);
  (868920534516636200, [0x5fa179a6]);
  (868960193450330600, [0x6613]);
  (869158724387089500, [0x8cca8d3c]);
  (869517076353293200, [0x5988]);
  (869896735116851800, [0x5ea6]);
  (870277840783215600, [0x5b8b]);
  (870297939265847900, [0x4e13]);
  (870318041788782200, [0x719f]);
  (870499146577189900, [0x8ba1]);
  (870660404423059800, [0x5fd8]);
  (870943232894421200, [0x8d74]);
  (871287746357068800, [0x5c04]);
  (871592717621192700, [0x98019875]);
  (871714967025170800, [0x4e43]);
  (871959915096204900, [0x57b8]);
  (872082614498101600, [0x5df4]);
  (872144020702057600, [0x54b1]);
  (872164497818951100, [0x652f]);
  (872266946347530600, [0x539a]);
  (872492703241771700, [0x70e7]);
  (872801377218723000, [0x5fae]);
  (872945751792630500, [0x864e]);
  (873317960659067800, [0x5e03]);
  (873421598351005500, [0x8282]);
  (873608417294806300, [0x5347]);
  (873941404074910700, [0x4f9d]);
  (873962252610376700, [0x82e6]);
  (873983105493363300, [0x7edd]);
  (874129197557330800, [0x7ffb]);
  (874275503362506800, [0x9003]);
  (874505845836878500, [0x5510]);
  (874862876563716300, [0x6625]);
  (875031333120714400, [0x805e95fb]);
  (875073491637359000, [0x5947]);
  (875136762756204900, [0x7565]);
  (875284551234492400, [0x7532]);
  (875708011532744000, [0x695a]);
  (875729231691974900, [0x558a]);
  (876538952715236900, [0x4efd73ed]);
  (876860393043437500, [0x5e7f]);
  (876989259040652200, [0x5b596012]);
  (877161339100323400, [0x7e617ee3]);
  (877571219945978800, [0x7248]);
  (877614463189895800, [0x574f58de]);
  (877679363138090500, [0x7d447ec4]);
  (877765961974418300, [0x53f68449]);
  (877809289531421800, [0x8f2a8f6e]);
  (877939384953066300, [0x54e5]);
  (878374262785633800, [0x51b36c7a]);
  (878417854765400000, [0x6d60]);
  (878439657883332200, [0x538b58d3]);
  (878614254173866000, [0x5f39]);
  (878701666766844400, [0x663e986f]);
  (878942446132376900, [0x8bed]);
  (878964363940683800, [0x5ba4]);
  (879161840691639000, [0x4e1a]);
  (879183806644500400, [0x6478]);
  (879425751115322100, [0x5e995edf]);
  (879447775121577800, [0x7a0d]);
  (879602079131032300, [0x7d20]);
  (879889276942489400, [0x625164b2]);
  (879933534522322300, [0x8d768d95]);
  (880132936383008700, [0x8fce]);
  (880421665067764500, [0x5b9d]);
  (880733538789030000, [0x679c]);
  (880822824509247200, [0x8cb48d35]);
  (880934543881832400, [0x7092]);
  (881270452830535700, [0x95f99b27]);
  (881315326064405200, [0x62ac]);
  (881450066709088600, [0x96e89f4a9f50]);
  (881742629087226200, [0x9a0e9a91]);
  (881832820750611800, [0x76d09e7d]);
  (881945674842264400, [0x5352]);
  (882036049904900000, [0x661f]);
  (882239692921311100, [0x5ba2]);
  (882285003298162500, [0x644664fa]);
  (882330334214623200, [0x501f]);
  (882353007381028000, [0x62988d1f]);
  (882580022234481900, [0x51fb]);
  (882625487113646500, [0x6234]);
  (882853122085605200, [0x7ec6]);
  (882967134183236300, [0x5446]);
  (883149824345945700, [0x5949]);
  (883309952482643000, [0x89c089c2]);
  (883378657397747000, [0x5531]);
  (883401569529821100, [0x534e83ef]);
  (883562101613372900, [0x6bd2]);
  (883630980045667900, [0x6ce5]);
  (883768879401007200, [0x5473]);
  (884299262288519100, [0x6e10]);
  (884391790631923800, [0x59cb6a2a]);
  (884716315719706000, [0x4eae]);
  (884878974056951900, [0x5957]);
  (885018606381244600, [0x51748208]);
  (885228421121929200, [0x6b65]);
  (885251761068353300, [0x4ed996ea]);
  (885298457310154400, [0x500d]);
  (885485460637208000, [0x6c57]);
  (886189854251729900, [0x8033]);
  (886354929162461300, [0x683c]);
  (886378533552987400, [0x5fcc]);
  (886543920477868300, [0x6838]);
  (886756963522111400, [0x7e317eb5]);
  (886780663012683200, [0x5668]);
  (886875517181521600, [0x85d5]);
  (887017967348060100, [0x9042]);
  (887065495866065100, [0x73a9]);
  (887303477891758200, [0x7df47ec3]);
  (887781147775399600, [0x7f6a]);
  (887829040496621500, [0x76d684cb]);
  (888044842043025400, [0x8ddd]);
  (888213010250826000, [0x5be8]);
  (888285169003205300, [0x5413]);
  (888429642902642800, [0x4e58]);
  (888526074925544800, [0x53855ef3]);
  (888574325831185300, [0x53f95606]);
  (888695055050243900, [0x6068796d]);
  (888864321201164200, [0x5c7d]);
  (888985401249859000, [0x8bcf]);
  (889082370954427100, [0x50ed]);
  (889155159990759900, [0x65af]);
  (889179434781509100, [0x5439]);
  (889349523511617000, [0x865a]);
  (889666172174683500, [0x6c64]);
  (889763804596400100, [0x670d]);
  (889934891036763200, [0x591f]);
  (889983826687360500, [0x8a0a8baf]);
  (890228864790855600, [0x59ca]);
  (890277944546442000, [0x592b73af]);
  (890327048402081400, [0x5f26]);
  (890474504806288000, [0x7cbe]);
  (890794741562286200, [0x62366237]);
  (890967602452348100, [0x632563ee722c]);
  (891066514428760600, [0x5c828c48]);
  (891264632373701500, [0x594f]);
  (891487985239850800, [0x630193c4]);
  (891512833047159600, [0x6e90]);
  (891537687030138300, [0x4ebf5104]);
  (891612286063810400, [0x591c]);
  (891861352195055600, [0x56f4570d]);
  (892086043339393700, [0x5c40]);
  (892136043340435400, [0x57238056]);
  (892161052719082700, [0x61c2]);
  (892587171925085500, [0x5b5879d2]);
  (892662558283725400, [0x5ff5]);
  (892838681111992000, [0x5a18]);
  (893470235566861000, [0x9aa8]);
  (893647787928026600, [0x63d2]);
  (893774804330216800, [0x732e737b]);
  (894233403860077100, [0x5883]);
  (894361166749565800, [0x5bc67af9]);
  (894437902908849800, [0x50e7]);
  (894668465326857500, [0x9178]);
  (894796785631902700, [0x70df7159]);
  (895415025622734400, [0x8d85]);
  (895440868755065900, [0x82cf8607]);
  (895621957926271200, [0x86cb]);
  (895699668071355300, [0x9694]);
  (895855269762501500, [0x5546]);
  (895881226933315500, [0x6392]);
  (895959138896742500, [0x5802]);
  (896037111610244700, [0x76d876e4]);
  (896089127216098900, [0x7687]);
  (896167201390526600, [0x4e895706722d]);
  (896375697687061600, [0x504f]);
  (896636930855475900, [0x9867987e]);
  (897214057326192300, [0x72d7]);
  (897556658794520200, [0x5c14723e]);
  (897794533890168200, [0x96de9e21]);
  (897820999418971700, [0x6e58812b8131]);
  (897953432228686100, [0x649e]);
  (898006454499281400, [0x5de5]);
  (898271988378083500, [0x7d507ed3]);
  (898405020192301900, [0x5e1d]);
  (898564892328671600, [0x7bc7]);
  (898778453541713600, [0x633a72af]);
  (898831915184259400, [0x6ce2]);
  (898912161276568800, [0x544a]);
  (899099652961331000, [0x7f577f858edf8f6f]);
  (899153286644569000, [0x5343]);
  (899180114277191400, [0x7eb8]);
  (899287496837845500, [0x8a668bd5]);
  (899341231390455000, [0x7136]);
  (899394994832610100, [0x592268a6]);
  (899502608509931200, [0x677e]);
  (899556458807409200, [0x8fbd907c]);
  (899799144648510200, [0x65d7]);
  (899880170986501500, [0x7da07eff]);
  (900449201108819400, [0x75db]);
  (900666829051079000, [0x51c6]);
  (900803087417984600, [0x4e505fd769f86a02]);
  (900966842913093500, [0x5931]);
  (901158230531321900, [0x5bb3966a]);
  (901240366059553500, [0x5565]);
  (901404839780841300, [0x81f4]);
  (901432278387132300, [0x57fa]);
  (901872323101614400, [0x8bc18eb2]);
  (902010235135609400, [0x786e]);
  (902175981029907300, [0x903c]);
  (902452836134763300, [0x4e01653f]);
  (902480563848790900, [0x70e4]);
  (902647091780697000, [0x82308266]);
  (902674873417214100, [0x70ae]);
  (903399918422776200, [0x793e]);
  (903483916747748800, [0x949f]);
  (903820617402539200, [0x54ac]);
  (904045715978171000, [0x7cd6]);
  (904243093738570000, [0x529d52f8]);
  (904525739489202600, [0x5b9c]);
  (904554048052732200, [0x8170]);
  (905321424278248000, [0x6769]);
  (905349959019488900, [0x706d7bad]);
  (905521338667262500, [0x4fa7]);
  (905607138758326000, [0x5bfb]);
  (906008515443973300, [0x8eba]);
  (906094734733694400, [0x8944]);
  (906123491024331000, [0x89d2]);
  (906181028425228000, [0x6069]);
  (906325016931026700, [0x54e6]);
  (906440357197562100, [0x8dea]);
  (906469213062716900, [0x9047]);
  (906555830651501700, [0x6fb6]);
  (906584719861582800, [0x8c37]);
  (906642523331400300, [0x731b]);
  (906671437600793500, [0x5370]);
  (906758230604940000, [0x5f027570]);
  (906787178354454900, [0x62d67cae7ce7]);
  (906961041046758800, [0x97e9]);
  (907106157891264800, [0x67e5]);
  (907280576540133800, [0x561b]);
  (907571952037656300, [0x706f71c8]);
  (907601136336710600, [0x6297]);
  (907864179013588000, [0x4f385e97]);
  (908186618102853800, [0x9633]);
  (908215982366756000, [0x96359663]);
  (908304126929536400, [0x5144]);
  (909071318653532300, [0x5e10]);
  (909130577914525900, [0x7f16]);
  (909576145263887900, [0x667a]);
  (909665497466407500, [0x6cbf]);
  (909754929578494400, [0x64cd]);
  (909874296945696800, [0x8f098f7d]);
  (909904161064180500, [0x6697]);
  (910173340230751600, [0x7075]);
  (910263227877253400, [0x767e]);
  (910323197894043200, [0x906d]);
  (910413220405749300, [0x79fb]);
  (910804257150078200, [0x780d90ed]);
  (911015450470392600, [0x517b990a]);
  (911136332926937900, [0x80e1]);
  (911166576387020300, [0x547c822c]);
  (911864712474957900, [0x6258]);
  (911895177060113600, [0x5b97]);
  (911956134087298200, [0x8863]);
  (912200334452853300, [0x4ed7]);
  (912414500054064000, [0x8258]);
  (912567756789041900, [0x76db]);
  (912598436341361000, [0x886588dc]);
  (912751975447218900, [0x4e485e7a]);
  (912874976692738800, [0x543e]);
  (912905750658207200, [0x7b14]);
  (912967327014832500, [0x8d39]);
  (913214012307984300, [0x67c4]);
  (913554201286133200, [0x74e6]);
  (913771289291997300, [0x65578d25]);
  (913895551501214600, [0x5f1f62f1]);
  (914051096718452000, [0x5cad5dba]);
  (914144540114131500, [0x6bd57562]);
  (914300473406292200, [0x5e8a]);
  (914362914869451200, [0x6d17]);
  (914550473536500700, [0x6b62]);
  (914769737524111400, [0x98f2996e]);
  (914926649528689900, [0x724c]);
  (914989483335344000, [0x7239]);
  (915209713092438000, [0x52b252c1]);
  (915241214116481700, [0x7897]);
  (915304245949643300, [0x72379b54]);
  (915905038270611100, [0x541b]);
  (916254522343560600, [0x5b54]);
  (916445666078087300, [0x607660e1]);
  (916701094058597000, [0x6d32]);
  (916893094117579500, [0x5956672f8853]);
  (917085463526053200, [0x6d94]);
  (917117561102961800, [0x68e3]);
  (917181787180956400, [0x54fc]);
  (917213915695289000, [0x593a596a]);
  (917342533076363300, [0x732a]);
  (917374713285812500, [0x642d]);
  (917439104788359200, [0x6276]);
  (917955734933259000, [0x81088109]);
  (918117730756795100, [0x8d758d99]);
  (918215054365450500, [0x8054806f]);
  (918247516628355000, [0x4f5b]);
  (918637887976402500, [0x7a74866b]);
  (918735719388086000, [0x83ab]);
  (918866310330575900, [0x4ef7]);
  (918898984730474500, [0x9020]);
  (919062517064547500, [0x767b]);
  (919095255647259400, [0x589e]);
  (919291912544463400, [0x620f7af49ce59e1f]);
  (919587624933437900, [0x6b4c]);
  (919653457720542300, [0x7e5e7ed5]);
  (919686390373565000, [0x6bc1]);
  (919851216519337000, [0x5c7e8499]);
  (920016314790287000, [0x5207]);
  (920181686086450000, [0x9632]);
  (920912586350216200, [0x5c16]);
  (921112853439847300, [0x8e22]);
  (921179698362122300, [0x53617236]);
  (921313522403506200, [0x5854]);
  (921414008092752000, [0x5f31]);
  (921514594857310000, [0x96d5]);
  (921548146275172200, [0x7f8a]);
  (921581708953789000, [0x9359]);
  (921682464629818900, [0x80af]);
  (921716072427144000, [0x6bcd]);
  (921850616678856500, [0x8111]);
  (922322952239869500, [0x899689c6]);
  (922424457915984600, [0x679a]);
  (922559959291730500, [0x632164cb]);
  (922865510369717700, [0x5a5a]);
  (923137897327372000, [0x6ed1]);
  (923171997924463000, [0x6c99936696c4]);
  (923240234024005900, [0x5410]);
  (923308516716997000, [0x624e]);
  (923513644994052600, [0x8f388f93]);
  (923547873986343100, [0x8bb895d695ef]);
  (923582114698884400, [0x6367798f]);
  (923719194912262300, [0x68489806987a]);
  (924062719812094400, [0x585e958395ea]);
  (924131566630648600, [0x9707]);
  (924234925812976700, [0x8fc19077]);
  (924269402627660600, [0x8ab28bfe]);
  (924303891332951500, [0x5c3e]);
  (924753330291735600, [0x6316]);
  (924892026569170500, [0x6df7]);
  (925030915480385800, [0x7d2f]);
  (925135208901972000, [0x5939]);
  (925204798327188300, [0x7070]);
  (925309273349750500, [0x8881]);
  (925344122626980700, [0x642c]);
  (925658313843727300, [0x626f]);
  (925693284992886000, [0x4e2272ec7368]);
  (925728268376135900, [0x8de8]);
  (925763264002039900, [0x65bd66f2]);
  (925833292016106100, [0x79cb9675]);
  (926008576898847500, [0x6d456dfa]);
  (926043670775326300, [0x53c253c3]);
  (926078776971930600, [0x6388]);
  (926149026360137400, [0x7cd5]);
  (926289673359412500, [0x659c]);
  (926465760744232000, [0x79e6]);
  (926536282608932000, [0x6311]);
  (926606854242065500, [0x64e6]);
  (926677475713927200, [0x778e]);
  (926748147094960500, [0x4ead]);
  (926854247900670000, [0x6247]);
  (926995890983841200, [0x9732]);
  (927066787831901200, [0x6ce8938a9551]);
  (927102255113706000, [0x5c3c]);
  (927422027992338000, [0x4e3462a481e8]);
  (927528846588929000, [0x4e1d7d72]);
  (927778534608787600, [0x5c7c]);
  (927849988702574500, [0x7b09]);
  (927885734904921100, [0x6e296eab]);
  (928028847630599400, [0x8b588bc69192]);
  (928136316743576000, [0x6f14]);
  (928387528072528100, [0x8cfd8d5b]);
  (928567351893688200, [0x62bd]);
  (928891851908021000, [0x5c4b6c28]);
  (929181183032101600, [0x65e8]);
  (929326163122737500, [0x521b5275]);
  (929471353710856400, [0x4f8b]);
  (929544028132659700, [0x756a]);
  (929580385159055400, [0x8dc3]);
  (929616755408592600, [0x6821]);
  (929689535615589700, [0x6599]);
  (929725945592325500, [0x7259]);
  (929762368830754000, [0x5eca]);
  (929835255131356900, [0x900f]);
  (929981187298809400, [0x8584]);
  (930054233321049200, [0x6eda6efe]);
  (930090776350873000, [0x84dd85cd]);
  (930456942999469300, [0x4ea9]);
  (930493633515382800, [0x821e]);
  (930567054957741200, [0x5ba15be9]);
  (930603785903976000, [0x65c5]);
  (930677288296112900, [0x914d]);
  (931193323352043800, [0x6447]);
  (931526471911144100, [0x6014]);
  (931600655890807300, [0x676f]);
  (932084197840954900, [0x5bcc]);
  (932196117270656400, [0x72fc8346834a97f3]);
  (932382928458928400, [0x9f13]);
  (932607563521565700, [0x73e0]);
  (932645051806915700, [0x88ad]);
  (932757601059089200, [0x9644]);
  (932907864047542600, [0x6162]);
  (933020709649135900, [0x7741]);
  (933473369795877200, [0x5708]);
  (933624712995403900, [0x5e9f5ee26108]);
  (933662584611081000, [0x5bb9]);
  (933814214662877400, [0x98129881]);
  (934308606238429800, [0x5609]);
  (934499409578132600, [0x601d]);
  (934728855185485000, [0x8d64]);
  (934920462831767000, [0x5f8162d4]);
  (934958828456638200, [0x8700]);
  (935035603892271200, [0x5c249813987f]);
  (935074013725660600, [0x4f78]);
  (935266284502062600, [0x7c97]);
  (935343296442719000, [0x4ffa]);
  (935420367737478200, [0x4e39]);
  (935536086168906200, [0x4e2556b4]);
  (935574688755758800, [0x5409]);
  (936039085875203900, [0x5077]);
  (936077883159880700, [0x5bc4]);
  (936194365409510000, [0x6c0f]);
  (936310983498528200, [0x53d4]);
  (936622631588710000, [0x9bae9c9c]);
  (936661655979449200, [0x6b47]);
  (936700695605164700, [0x9505]);
  (936896122675374700, [0x5438]);
  (937013562500968800, [0x7164]);
  (937248856727171500, [0x8f86]);
  (937366711779116000, [0x95ed]);
  (937484705893100700, [0x54ca92fc94a2]);
  (938155981859006800, [0x523b]);
  (938473442443084000, [0x6d63]);
  (938592750470758000, [0x5212]);
  (938791914049836000, [0x4fe95006]);
  (938871690679515900, [0x8a8d8ba4]);
  (938911602873220700, [0x5996]);
  (938951531003118200, [0x7f3a8b1d8c22]);
  (938991475081939700, [0x714e810a]);
  (939031435122431500, [0x543b]);
  (939271531276185300, [0x5c38]);
  (939311603406555300, [0x67f3]);
  (939351691601119000, [0x7a0e]);
  (939431916234382800, [0x805a]);
  (939793725674300400, [0x8c46]);
  (939834007648661900, [0x54c8]);
  (940237722367359100, [0x5983]);
  (940278183626256200, [0x8d62]);
  (940318661262914900, [0x5806]);
  (940561871759776100, [0x984d989d]);
  (940805675212519000, [0x8f4e8f7f]);
  (940927800202255100, [0x62b5]);
  (940968541698031500, [0x4fd8]);
  (941009299799268300, [0x82999759975c]);
  (941050074519506900, [0x9650]);
  (941295072600405400, [0x9d3b9e3f]);
  (941376872195968600, [0x76d1]);
  (941540672396392400, [0x645479ef7a4d]);
  (941581664403525100, [0x68d2]);
  (941786876870369800, [0x9488]);
  (941951350591657800, [0x86c7]);
  (941992511324899900, [0x58eb]);
  (942363722310043900, [0x4f0f5509]);
  (942405053164114500, [0x8d4f907f]);
  (942529148319646600, [0x54759225]);
  (942694848440409500, [0x4f736715]);
  (943235277941147700, [0x5ca9]);
  (943276970666371300, [0x5f79]);
  (943318680781678700, [0x6c89]);
  (943402153240615600, [0x95a39601]);
  (943443915613325300, [0x57cb]);
  (943527492718065000, [0x6349]);
  (943611139732561500, [0x63a2]);
  (943946429233592500, [0x6c9f]);
  (944198636176863600, [0x5782]);
  (944240732578243000, [0x7d147eaf8cdc8d50]);
  (944282846708155800, [0x65a965ac]);
  (944493683809238700, [0x947d94bb]);
  (944662674132513800, [0x5e45731c]);
  (945001513931504000, [0x7ec8]);
  (945171365352380900, [0x7968]);
  (945256399371110200, [0x7c89]);
  (945426684640014900, [0x6ce1]);
  (945639949809350900, [0x7ee7]);
  (945725383389942400, [0x6caa]);
  (945810890021915700, [0x6b276b50]);
  (945896469830305400, [0x63b764f2]);
  (946368472422971500, [0x5f90]);
  (946454530948076200, [0x935a]);
  (946583757759081700, [0x4f1168376a23]);
  (946670001835147400, [0x5f69]);
  (947059023289667600, [0x9352]);
  (947102341462318000, [0x5ac1]);
  (947449564033393000, [0x58c196349670]);
  (947536558384247100, [0x7a777aae]);
  (947667191975652700, [0x4ff177ff7926]);
  (947797996441654000, [0x7838]);
  (948147647147527000, [0x590777e380f8]);
  (948235251182915000, [0x9012905e]);
  (948366801300548800, [0x5e866176]);
  (948410689824404500, [0x54c1]);
  (948454597618743200, [0x6254]);
  (948850637740353000, [0x63e1716e]);
  (949203994998484000, [0x632464e0]);
  (949336826543363600, [0x5cf062e564c1]);
  (949469834765145000, [0x8b5c8c31]);
  (949603020134443900, [0x7487]);
  (950585170886530200, [0x8a0e8ba8]);
  (951034811931857900, [0x6d8c6e67]);
  (951079887434085900, [0x8d27]);
  (951170099438399700, [0x8b708bae]);
  (951305570220012200, [0x55ef]);
  (951441224773937400, [0x62b9]);
  (951486483883105400, [0x4ea1]);
  (951531763485418500, [0x55829935]);
  (951803872496854600, [0x5f71]);
  (951849296072471000, [0x6267]);
  (951940205169641000, [0x76d776dc]);
  (951985690728760600, [0x7d717edf]);
  (952076723962175100, [0x704f]);
  (952122271674190000, [0x7b517bc9]);
  (953129606199474300, [0x51b064a4]);
  (953267759571666700, [0x5fe0]);
  (953406104071481200, [0x66f9]);
  (953544640228480000, [0x788e]);
  (953590861629811200, [0x7eb2]);
  (953637104405201800, [0x5a36]);
  (953775961173636400, [0x6742]);
  (953822289643309200, [0x8dcc]);
  (953915011022228400, [0x5c0a]);
  (954240214560866200, [0x599962e864a5]);
  (954333324437239100, [0x62f3904d]);
  (954473152006047900, [0x96469678]);
  (954753395066618200, [0x5f92]);
  (954940661038947300, [0x934f]);
  (955081341015255500, [0x641c]);
  (955175237735769200, [0x5fcd]);
  (955269222705093500, [0x52a9]);
  (955646048398287300, [0x70b8]);
  (955740477111630700, [0x93b4]);
  (955882287582098800, [0x50bb]);
  (955976939742502000, [0x51cf]);
  (956024299440285000, [0x6355]);
  (956308929613469000, [0x78e893c9]);
  (956737399681024000, [0x7a0b]);
  (957024069729231500, [0x6da86e216f32]);
  (957311563937791400, [0x7a9d7aa9]);
  (957359560099019900, [0x6d4b]);
  (957503686955580800, [0x629b]);
  (957599887059199900, [0x58f36bbc]);
  (957840792981539100, [0x5f8b]);
  (957937318085558700, [0x5e935eab]);
  (957985615599175800, [0x89c4]);
  (958130648256940300, [0x79df]);
  (958372837767426600, [0x596559676881]);
  (958421346136071300, [0x901f]);
  (958567012585717700, [0x60a3]);
  (958712891532083600, [0x5ae9]);
  (958907728417879000, [0x4e92]);
  (958956497011871700, [0x7f5a7f70]);
  (959054105609177300, [0x5245]);
  (959102945658988300, [0x517d7378]);
  (959298544743355000, [0x6d4e6fdf]);
  (959396487944132700, [0x7de37f18]);
  (959690894437447600, [0x68636a94]);
  (959936897021534000, [0x6e7e6e7f6fd5]);
  (960183506271053100, [0x5f2f5f4e]);
  (960232901184381600, [0x7e2e7f2999289986]);
  (960480242393833400, [0x70c8]);
  (960728196897266400, [0x5de8]);
  (960877265247852000, [0x5bd2]);
  (960927004119805000, [0x9b4f]);
  (961325808237600700, [0x99d59a7e]);
  (961375770766743900, [0x751c]);
  (961625958537976200, [0x91c7]);
  (961927012453263300, [0x5237]);
  (961977276339719900, [0x5df18b008c0b]);
  (962027565503465200, [0x5386]);
  (962430791856259100, [0x666f9897]);
  (962481309664860500, [0x90aa90ce]);
  (962582421908055400, [0x76ef]);
  (962683636491594900, [0x7816]);
  (962784953622855600, [0x5b64]);
  (962886373509845000, [0x68076a19]);
  (962937122051913800, [0x6cea6dda]);
  (962987896361204700, [0x7275727d]);
  (963038696463897300, [0x7eb393269526]);
  (963242155333676000, [0x819c]);
  (963395021605482600, [0x5c55]);
  (963446029002660800, [0x6d257a81]);
  (963497062430663000, [0x9614]);
  (963752620964844400, [0x4ed8]);
  (963855027527813300, [0x51c06de8]);
  (963906270162806000, [0x96f7]);
  (964317159287373100, [0x9913997f]);
  (964626437884417600, [0x90bb9130]);
  (964729743678728900, [0x6572]);
  (964781436623793300, [0x503e50be]);
  (964833156304284100, [0x97ad]);
  (965040302934544200, [0x7e6a7ed8]);
  (965092156708068100, [0x626964f4]);
  (965247879552928700, [0x5cb8]);
  (965351829666239200, [0x626b63836756]);
  (965560054624347200, [0x62df8fdf9072]);
  (965612178680778800, [0x600061f762c5]);
  (965820947023827300, [0x56ed]);
  (965873207281091900, [0x5a01]);
  (966082521852542400, [0x8d81]);
  (966134919024294000, [0x732b79c17a337a69]);
  (966187343665075300, [0x6492]);
  (966292275469037000, [0x614c]);
  (966502469976274300, [0x8cc88d3e]);
  (966765835943620500, [0x80a9]);
  (966818592473464600, [0x8f5f8f70]);
  (966977029263934700, [0x73ca]);
  (967029897359271500, [0x98389888]);
  (967082793419748300, [0x4f0a]);
  (967188669554572700, [0x699c78b0]);
  (967241649688262200, [0x6d53]);
  (967560121295014100, [0x54c4]);
  (967613298642717700, [0x519c8fb2]);
  (967719738248296400, [0x795d]);
  (967986333980708300, [0x52c7]);
  (968146633240254000, [0x8cfa8d5a]);
  (968200123479560800, [0x846c]);
  (968253642346238400, [0x60ac61f8]);
  (968521667164958300, [0x5b5d]);
  (968629078560892200, [0x7d0b7eb9]);
  (968682827554392400, [0x75bc]);
  (968790412287738800, [0x8a898b7d]);
  (969059881596581200, [0x6d2a]);
  (969113862704504700, [0x5269]);
  (969275981086404700, [0x5c83]);
  (969330079004954300, [0x96f6]);
  (969546763813463200, [0x5764]);
  (970145079441146600, [0x5f559304]);
  (970472948587316400, [0x81ed]);
  (970527698109625800, [0x5272]);
  (970637287161689400, [0x68fa7de97f13]);
  (970801896252356400, [0x7626]);
  (970856826218033000, [0x6469]);
  (970966776751374800, [0x52d2]);
  (971021797385500000, [0x8e0f9e7f]);
  (971518350129905000, [0x74f6]);
  (971684417148419000, [0x7ae5]);
  (972463064019046000, [0x5b81]);
  (972686652709174400, [0x9063]);
  (972742628081472700, [0x514d]);
  (972910742438803100, [0x5a035fe76182]);
  (973529591108614600, [0x9ebb]);
  (973586040446833900, [0x5c3f5f845f916c38]);
  (973642521668329800, [0x7b4b]);
  (973699034809138600, [0x5267]);
  (973755579905358300, [0x8bd1]);
  (973812156993147600, [0x67f1]);
  (973982080568443500, [0x9a199a97]);
  (974038785985330200, [0x9f3b]);
  (974265929751361300, [0x62c6]);
  (974379695406407400, [0x6e9c72c27891]);
  (974550586931904300, [0x80a5]);
  (974607615732993800, [0x758f]);
  (974836056723257000, [0x68c99351]);
  (974893248603569200, [0x77aa]);
  (975179699673115200, [0x75be]);
  (975237088483872400, [0x8f9e8fad]);
  (975409452789689000, [0x80ea81da]);
  (975466973642583400, [0x6574]);
  (975524527601006700, [0x7981]);
  (975582114703087600, [0x9189]);
  (975639734987021300, [0x7fc1]);
  (975755075253556600, [0x6f5b6f5c7039966996aa]);
  (975812795312879200, [0x5ce178b3]);
  (975928335475934700, [0x963b]);
  (976217771278571000, [0x8d22]);
  (976275759102753300, [0x509a56fa]);
  (976624393970697100, [0x7434]);
  (976740876220326400, [0x5ddd]);
  (976799168265113000, [0x809d8bef]);
  (977032676835897900, [0x4eea5100925b94c5]);
  (977091139275446500, [0x5acc7b56]);
  (977208166790265600, [0x5824]);
  (977618844985531000, [0x5bf0]);
  (977677651220686400, [0x52fe]);
  (978031216703917200, [0x8377]);
  (978090266011803600, [0x6123]);
  (978149350208500200, [0x704c]);
  (978208469335259000, [0x76fc]);
  (978267623433405300, [0x6da6]);
  (978386036709526900, [0x81c2]);
  (978445295970520400, [0x634f]);
  (978563919946471000, [0x7dad7ef4]);
  (978623284744890000, [0x59d1]);
  (978861096985386700, [0x4e4c70cf]);
  (978980215522402000, [0x57c379c0986b98a4]);
  (979218879120175000, [0x514751f6]);
  (979278634126434800, [0x6d88]);
  (979398251365577700, [0x745c8ff0]);
  (979458113684037100, [0x7238]);
  (979518011858933600, [0x6db2]);
  (979697921952438300, [0x6001614b]);
  (979878156305824400, [0x579c]);
  (979998493263787700, [0x626c]);
  (980058716090058200, [0x69fd93c3]);
  (980118975206072700, [0x99529976]);
  (980239602482460800, [0x7f01]);
  (980360375444000800, [0x63287fc5]);
  (980541808817024800, [0x92c5950c]);
  (980602359833104300, [0x91d89489]);
  (980662947535654600, [0x536b885b]);
  (980723571969157200, [0x5bdf]);
  (980844931207353100, [0x6e417a97]);
  (980966437905170000, [0x6f6e]);
  (981088092421390300, [0x5a25]);
  (981148975223879700, [0x6b3e]);
  (981392877783815700, [0x54e89d289e2d]);
  (981453946488003700, [0x8f9f95e2]);
  (981637376683122300, [0x6d0b]);
  (981698594928070600, [0x8fa8]);
  (981821143963015800, [0x52eb]);
  (981882474845036400, [0x969096b1]);
  (982189694748733400, [0x5524]);
  (982312847473658100, [0x59bb]);
  (982374480757581400, [0x51c9605067f46dbc]);
  (982559608857353700, [0x5b6395d59619]);
  (982621394463273400, [0x52116e6a]);
  (982745080317013000, [0x959295f2]);
  (982806980659441500, [0x524252916444651d]);
  (982868919342127800, [0x5178]);
  (983054965907419700, [0x72e0]);
  (983179189525878900, [0x5eb8]);
  (983241359251226000, [0x8d3a8ff7]);
  (983303567651366000, [0x60f96cc98af2]);
  (983365814774446500, [0x5761]);
  (983677632925445700, [0x526a5e848179838a]);
  (983740113402329900, [0x4f2f]);
  (983802632941721800, [0x8cc78d44]);
  (984115818290101200, [0x9b6f9c81]);
  (984178573234112300, [0x7206]);
  (984429987571445500, [0x63a9]);
  (984492940044409000, [0x7956]);
  (984555932172476200, [0x98fd9971]);
  (984682035593979000, [0x58a9]);
  (984745146987680000, [0x6c949686]);
  (984808298237016000, [0x70897210]);
  (984997991623016000, [0x4e8f86678e47]);
  (985124654084535200, [0x978b]);
  (985188045528813400, [0x58ee58ef]);
  (985378461327382400, [0x7e56]);
  (985632914390881800, [0x5e2d]);
  (985696628951814000, [0x67d473de]);
  (985824179989515000, [0x4f34]);
  (985888016570042300, [0x6b20]);
  (985951893927691900, [0x93e1955c]);
  (986207812173574000, [0x53ec]);
  (986400181582047800, [0x62d0]);
  (986464387041717400, [0x6212]);
  (986592921763783800, [0x4ec77792779e]);
  (986786034150800800, [0x780c]);
  (986850487907463300, [0x4e7e90d1912d]);
  (986914983233787900, [0x83b284ee]);
  (986979520183430400, [0x5145]);
  (987108719167810600, [0x57b16717]);
  (987173381310380400, [0x5375]);
  (987238085291932600, [0x8a028ba2]);
  (987367618988801000, [0x997c]);
  (987432448812789700, [0x885496fe9727]);
  (987497320693105600, [0x7785]);
  (987627190841229200, [0x7e8f7f20]);
  (987692189218558200, [0x606f]);
  (987757229871257500, [0x71d574a7]);
  (987887438222987400, [0x780178bc80d6]);
  (988083069195063500, [0x6649664b]);
  (988213702786469000, [0x5e16]);
  (988344507252470600, [0x9350]);
  (988475483040677000, [0x78c1]);
  (988541035320965900, [0x6643]);
  (988869442841085000, [0x5e55]);
  (988935253965539800, [0x62bc]);
  (989067006290264000, [0x718a]);
  (989198932430770100, [0x6263]);
  (989264960825377800, [0x5065]);
  (989728384362467600, [0x51a098c498d8]);
  (989861186506819600, [0x9501]);
  (990527855642638500, [0x59d470c2]);
  (990594767655840900, [0x68437d22]);
  (990728726148746500, [0x5288926494a9]);
  (990795772748643300, [0x58217c91]);
  (991064409579101700, [0x51ac]);
  (991131681697346800, [0x4f18512a]);
  (991603857954037200, [0x6241]);
  (991739175971979100, [0x820d]);
  (991874677347725000, [0x6ef4]);
  (992078274296235000, [0x55807e2b7f1d]);
  (992214236247839000, [0x91ce]);
  (992418526410819100, [0x7763]);
  (992554952080000400, [0x665266ec6a907c3784b8]);
  (992759940194144800, [0x4e116885]);
  (992896832754879000, [0x4e957980]);
  (992965349372838600, [0x80c3]);
  (993033912968256900, [0x5e0c]);
  (993102523605596800, [0x7cac]);
  (993239886264557900, [0x629664d2]);
  (993308638415770800, [0x6735]);
  (993377437868088900, [0x679d]);
  (993446284686643000, [0x9ea59ea6]);
  (993515178936698400, [0x6de1]);
  (993584120683655100, [0x540a]);
  (993653109993049000, [0x58576d82]);
  (993860363953246100, [0x8a2a8bbf]);
  (993998772279840000, [0x629a64ab]);
  (994137372440627800, [0x8afe8bfa]);
  (994206744625164900, [0x5f03622a67467a00]);
  (994276164968112600, [0x5751]);
  (994415150397017900, [0x7a3f]);
  (994484715617214700, [0x5937]);
  (994623991405745000, [0x5eb5]);
  (994693702109160700, [0x597460e761fc]);
  (995042986432130400, [0x4fd7]);
  (995112989935164200, [0x5a765b38]);
  (995183042477433600, [0x9cde]);
  (995323294954842000, [0x56f088c1]);
  (996168965956664500, [0x88c2]);
  (996310609039835700, [0x4fca524a]);
  (996452453035249200, [0x548b]);
  (996523450553318400, [0x656c7d98]);
  (996665596988056100, [0x64906491668266ab]);
  (996736746048332600, [0x50ac]);
  (996879196214871000, [0x80be814e]);
  (996950497465663700, [0x78a7]);
  (997021849591416400, [0x7c4d80ba]);
  (997164706758569000, [0x4e4e]);
  (997307768299421000, [0x53c96dfb]);
  (997379375892885500, [0x51d162fe6e4a]);
  (997522745093070300, [0x60286d6e]);
  (997594506847136700, [0x7a917aaf]);
  (997666320135680700, [0x58f6]);
  (997738185032773000, [0x62846b8b6b98]);
  (997810101612643400, [0x51707b05862d]);
  (997882069949682700, [0x72b973367940867e8766]);
  (998026162193634000, [0x56ca]);
  (998098286250132300, [0x53d96558]);
  (998604616445787000, [0x88f9]);
  (998749754352251700, [0x8f74]);
  (999113523396534100, [0x5bee78f77d817ed1]);
  (999186436268885800, [0x62ab]);
  (999259402342900100, [0x8fd4]);
  (999771661055463800, [0x586b]);
  (999845055554171400, [0x8ce68d4b]);
  (999992006352107400, [0x7c98]);
  (1000139173413253000, [0x654f6c88]);
  (1000212838241630200, [0x63ea]);
  (1000286557375083200, [0x9636968e]);
  (1000360330893737000, [0x626d]);
  (1000434158877895100, [0x666e]);
  (1000508041408038400, [0x509b]);
  (1000581978564826200, [0x85728604]);
  (1000655970429097300, [0x75c7]);
  (1000730017081869700, [0x643a651c]);
  (1000878275077892000, [0x5d85]);
  (1000952486584080800, [0x8d5e]);
  (1001101075021523300, [0x5141]);
  (1001324372471954400, [0x52a152d9]);
  (1001398915896949200, [0x54df55b2658b9f4b]);
  (1001622880156299700, [0x830e8396]);
  (1001697646514922900, [0x8f298f88]);
  (1001847347141682200, [0x6eaa]);
  (1002072319115083800, [0x50195f7c6ee9701b]);
  (1002222582103537200, [0x5224]);
  (1002373071221479300, [0x67489006]);
  (1002448400791896400, [0x7095]);
  (1002523787150536400, [0x942a]);
  (1002599230383084900, [0x6398]);
  (1002674730575421900, [0x82318259]);
  (1002901573772884600, [0x888d]);
  (1002977302667075500, [0x7bd89677]);
  (1003053088953385700, [0x6c27]);
  (1003128932718872000, [0x6402645f6c6a6cf07dba7eee]);
  (1003204834050789000, [0x522e]);
  (1003356809763930700, [0x6b3d94a6]);
  (1003432884320661600, [0x8d8b8da8]);
  (1003509016794837500, [0x6dd18a558bc4]);
  (1003737762605597400, [0x77ee]);
  (1004120172249437800, [0x50996dee]);
  (1004273546512632700, [0x6655]);
  (1004350321948265700, [0x7334]);
  (1004427156373866700, [0x59d06fc2]);
  (1004504049880154400, [0x5ef775af760b]);
  (1004658014498713600, [0x4f195925]);
  (1004735085793472700, [0x52ec]);
  (1004889406811753400, [0x514c515156175c1d7126]);
  (1005353803931198400, [0x5ba37ffc]);
  (1005509083465504500, [0x722a]);
  (1005586813745360600, [0x8e72]);
  (1005664604492185200, [0x62338010]);
  (1005742455800126600, [0x52ab581d6c60]);
  (1005898340477055600, [0x54ce820c]);
  (1006132624067233000, [0x542f5cb1676d]);
  (1006289118621863200, [0x518c57ae7a84]);
  (1006524320611906400, [0x55b75bfc]);
  (1006760077106171800, [0x53cb]);
  (1006838786279853400, [0x5d16]);
  (1007075286193003200, [0x9080]);
  (1007154243954705000, [0x8702]);
  (1007312346754436800, [0x817e]);
  (1007549970628625100, [0x6b226b61]);
  (1007629304230564800, [0x9e23]);
  (1007708700820682400, [0x8521]);
  (1007788160499078600, [0x93c2]);
  (1007867683366092500, [0x4e18]);
  (1007947269522302800, [0x76b176ba]);
  (1008026919068528700, [0x5976]);
  (1008186408735510400, [0x6b6a9f529f7f]);
  (1008266249059112800, [0x535e]);
  (1008426121195482500, [0x7830]);
  (1008506153212559500, [0x53ae]);
  (1008666409657113600, [0x7f69]);
  (1008746634290377400, [0x4faf932b9521]);
  (1008907276895204700, [0x62d2]);
  (1008987695074046000, [0x58a8]);
  (1009068177975774800, [0x6fc09769]);
  (1009148725704656400, [0x6ec48ce28d248e29]);
  (1009471566985868300, [0x71ac]);
  (1009633379318909400, [0x532f6c47]);
  (1009714383778583800, [0x59c6]);
  (1009795453908682800, [0x4ec0]);
  (1009876589815770700, [0x5146]);
  (1009957791606671800, [0x83cc]);
  (1010120393268513600, [0x7b52]);
  (1010364792575501400, [0x55e4]);
  (1010691590251963100, [0x6363641795f7]);
  (1010773456814046700, [0x70e67169]);
  (1010855390452387000, [0x738480c6]);
  (1010937391276990000, [0x9176]);
  (1011101594926364400, [0x5de7]);
  (1011183797972506000, [0x4e607fd2]);
  (1011266068647652400, [0x7262]);
  (1011595829869807900, [0x6e748b028c13]);
  (1011678440366038400, [0x69ae836391dc]);
  (1011761119163638000, [0x5f8c705e82d79a629a74]);
  (1011926682115364000, [0x9b42]);
  (1012009566496404000, [0x826f8b0e8c1c]);
  (1012175541638240600, [0x4f8d]);
  (1012258632627649200, [0x99b39a70]);
  (1012508320647508000, [0x59875a66]);
  (1012591688722365800, [0x83618d56]);
  (1012675126357577700, [0x5c80]);
  (1012758633669319900, [0x5cb363a0800d808c]);
  (1012842210774059400, [0x7bb1]);
  (1013009574829862400, [0x62cc7d30]);
  (1013093362015325600, [0x58357e419417]);
  (1013177219462587600, [0x6d466f3f9354]);
  (1013429214556039000, [0x6c5d]);
  (1013513354232858200, [0x81548fa98faf]);
  (1013597564764150300, [0x4fb5]);
  (1013681846269350100, [0x4ef07978798d]);
  (1013766198868194000, [0x7ad68c4e]);
  (1013935117827278500, [0x73cd]);
  (1014019684428512800, [0x67d38c6a]);
  (1014104322605381000, [0x645868cb9357]);
  (1014189032479146100, [0x64b065cb68cd]);
  (1014273814171380100, [0x6101]);
  (1014528591379260000, [0x606d]);
  (1014613661567291200, [0x4f10]);
  (1014698804186313000, [0x7b7e95b2]);
  (1014784019359769700, [0x4ec193c894fe]);
  (1014954667865345400, [0x60e8]);
  (1015040101445937000, [0x590a]);
  (1015211187886300000, [0x60ef61637709]);
  (1015296840996461600, [0x509795f8]);
  (1015468367625137000, [0x6d6a]);
  (1015640188973250700, [0x6f06]);
  (1015726210483931500, [0x5a1f]);
  (1015898475815076200, [0x809a]);
  (1015984719891142000, [0x575f58b362e66514]);
  (1016071038411823000, [0x86ee883b9057907a]);
  (1016157431505749500, [0x8d66]);
  (1016417059518312600, [0x7fbd]);
  (1016503752198211300, [0x8986]);
  (1016590520099533500, [0x5c615c62]);
  (1016677363352928900, [0x575a]);
  (1016764282089387600, [0x8cac8d23]);
  (1016938346537166000, [0x53e9]);
  (1017025492512180100, [0x96409b66]);
  (1017200012626283200, [0x4e3d9e97]);
  (1017287387031143000, [0x7591]);
  (1017374837845636100, [0x62fd]);
  (1017462365203521600, [0x7c9292239499]);
  (1017549969238909600, [0x7481]);
  (1017901154850063600, [0x711671dc]);
  (1017989144297007400, [0x56b7636164bf]);
  (1018077211233566900, [0x4ec650d5]);
  (1018253578122316600, [0x7ec7]);
  (1018430256613505000, [0x62526cdb9645969b]);
  (1018518713054478500, [0x62807ade7af6]);
  (1018873323355153600, [0x68428235]);
  (1019051101179753600, [0x57df]);
  (1019140108751272900, [0x537f]);
  (1019496933393924600, [0x7a9c7ac4]);
  (1019586338853612700, [0x7f1a]);
  (1019675824318197100, [0x7ca5]);
  (1019855035835695200, [0x82d5]);
  (1020034569097562700, [0x90e2]);
  (1020124456744064500, [0x541e55d7]);
  (1020304474794479300, [0x68a8]);
  (1020394605490080400, [0x501a]);
  (1020665486016889100, [0x52b352de79be8036]);
  (1020755942829931800, [0x62fc7529]);
  (1021027805253831200, [0x5e8f]);
  (1021209458346471000, [0x70bc7149979197c3]);
  (1021665040000057100, [0x5366609f]);
  (1021756405926924500, [0x7fe0]);
  (1021847855407463300, [0x54bd]);
  (1021939388594632100, [0x7e8c7eed]);
  (1022490354175729000, [0x76d2]);
  (1022582477627661200, [0x63a7]);
  (1022766979525018100, [0x63ed]);
  (1022951822461196300, [0x515c]);
  (1023044372213290600, [0x5d07]);
  (1023137007699303800, [0x82ef8ced8d4c]);
  (1023322536509478400, [0x543c5eb7893093b6]);
  (1023415430152944200, [0x63236399]);
  (1023601476718236100, [0x9cd9]);
  (1023694629962047400, [0x4fa850d1]);
  (1023787870062042400, [0x822a]);
  (1023881197180342400, [0x5d86]);
  (1024161702273103100, [0x4e88]);
  (1024536937234958200, [0x76c6]);
  (1024630966390922500, [0x5158]);
  (1024725084044928800, [0x4f1e]);
  (1024819290363718800, [0x59dc777f]);
  (1025007969664976500, [0x68a26d1b]);
  (1025102442983292800, [0x8a138bad]);
  (1025197005638093400, [0x6f0f]);
  (1025291657798496600, [0x7e697ef3968b]);
  (1025481231314986500, [0x5a1c]);
  (1025671164895351600, [0x80bf816b]);
  (1025766267137422000, [0x83f296c5]);
  (1025861459909960300, [0x536781e5935b9df99e70]);
  (1026147583138063400, [0x944494f8]);
  (1026243139762630300, [0x6a21888b]);
  (1026338787785226000, [0x543554c7]);
  (1026530358725039900, [0x707e73c2]);
  (1026818405011575300, [0x533b83528a93]);
  (1026914605115194400, [0x4e0871b7]);
  (1027010897852533800, [0x6f7582068f3f]);
  (1027300333655170300, [0x8f148f859ba0]);
  (1027396998718279700, [0x8aa58bf0]);
  (1027590609620966300, [0x63f4]);
  (1027687555823421100, [0x574a]);
  (1027784596102749000, [0x5f6d6d1274d9]);
  (1028076283232261400, [0x514052035bb86591]);
  (1028271215067866300, [0x8896]);
  (1028368823665171800, [0x67af70eb71d978458fa396cc]);
  (1028466527629954500, [0x59be6cbe]);
  (1028662222408650500, [0x6cc46d29]);
  (1028760213597285600, [0x525d52655f13635f]);
  (1028858300902844600, [0x64c56b0e]);
  (1029054764620261200, [0x848b8523]);
  (1029153141411274500, [0x79d8]);
  (1029448853800248800, [0x4e27533993af]);
  (1029646482323070000, [0x51ff63c96c228a738be6947f]);
  (1029943659361985700, [0x57ab588a635076cf8cfc8d2d]);
  (1030142269159148700, [0x80a0]);
  (1030241722175799500, [0x842885a9]);
  (1030341274199949600, [0x621f]);
  (1030440925428923600, [0x52ff78d5]);
  (1030640526293595000, [0x864f865c]);
  (1030740476326903600, [0x5426]);
  (1030840526360261800, [0x8463]);
  (1030940676593970700, [0x7a9f]);
  (1031040927228933400, [0x552f]);
  (1031141278466657400, [0x607c]);
  (1031241730509257900, [0x93339530]);
  (1031342283559459700, [0x7b02]);
  (1031644550792118400, [0x4f84]);
  (1031745509912253700, [0x6b3a8dfa]);
  (1031846571062845900, [0x58755c18]);
  (1031947734450330300, [0x7b807c219f0e]);
  (1032150368764853500, [0x827a85dd]);
  (1032251840107908300, [0x7a76821f9022]);
  (1032455092210400600, [0x59dd]);
  (1032556873389670600, [0x5076]);
  (1032658758268580900, [0x4fa04fe060707b1b]);
  (1032760747058655300, [0x626e]);
  (1033169745583807900, [0x59556e1d]);
  (1033272257125332400, [0x5bb478b1]);
  (1033374873860863700, [0x4ed35009]);
  (1033477596006516700, [0x675f]);
  (1033580423779073200, [0x60df9010]);
  (1033683357395984700, [0x4e32545c55da]);
  (1033786397075374300, [0x4f26635e6488]);
  (1033889543036040600, [0x6cca]);
  (1033992795497459500, [0x793a]);
  (1034199620803865300, [0x684c7802]);
  (1034303194091218500, [0x95c2]);
  (1034406874764062700, [0x95c4]);
  (1034614559158546500, [0x524c810f81df899389c5]);
  (1034926896736773300, [0x62da9c329ccc9ed4]);
  (1035031226428031200, [0x5ae3]);
  (1035135665079821800, [0x633d]);
  (1035240212919977000, [0x59b9]);
  (1035344870177044100, [0x5378]);
  (1035554513859697000, [0x4e597076]);
  (1035764597970578100, [0x5a0c6d69]);
  (1035869805765658600, [0x8aed8c1593df94f2]);
  (1035975124364124300, [0x6d7c99dd9a7c]);
  (1036186094906509300, [0x640165a79422]);
  (1036291747319929300, [0x8247]);
  (1036397511475742800, [0x89e698fe9970]);
  (1036609375961771400, [0x5c4f74557b3c7c60]);
  (1036715476767480800, [0x6c239470]);
  (1036821690266579100, [0x5c845d4c]);
  (1036928016698712300, [0x7554]);
  (1037247676001275000, [0x5018]);
  (1037354456577358000, [0x590980f681a083b1840a]);
  (1037461351296248500, [0x541554429e64]);
  (1037568360402233000, [0x6e20]);
  (1037782722756558000, [0x4f635085]);
  (1037890076497410500, [0x901b]);
  (1038105130343733300, [0x8feb]);
  (1038212830946497000, [0x51bb51cd9187]);
  (1038428580760499300, [0x8fc8]);
  (1038644797060948800, [0x59786ec3]);
  (1038753080774832000, [0x4f2a5045507d6cfc6f51]);
  (1038970000599586500, [0x93e29556]);
  (1039187391989548500, [0x575d58e9]);
  (1039296265163068000, [0x7199]);
  (1039405256999470600, [0x74707ca4]);
  (1039514367757704000, [0x51e466746a3b9cf3]);
  (1039732947079702200, [0x53e0758a]);
  (1039842416165620300, [0x970d]);
  (1039952005217684000, [0x6495]);
  (1040061714499121400, [0x8679]);
  (1040391566364987800, [0x819d9733]);
  (1040501759213603500, [0x4f798c6b]);
  (1040612073620819300, [0x5766]);
  (1040722509855124600, [0x68f1]);
  (1040833068185899500, [0x5b8588d8]);
  (1040943748883418600, [0x9f9c9f9f]);
  (1041165478464283300, [0x618b94dd]);
  (1041276527892686000, [0x82af]);
  (1041387700777955000, [0x4e1065a175f0]);
  (1041610418019237500, [0x4e1b534853e2]);
  (1041721962927624100, [0x6f6d]);
  (1041833632397631600, [0x813e]);
  (1041945426707765800, [0x8427856d8587920994a0]);
  (1042057346137467300, [0x64ae6c90906e]);
  (1042393857952498600, [0x5507]);
  (1042506280673726800, [0x662d]);
  (1042618829925900100, [0x55ed]);
  (1042731505994159100, [0x836b950b]);
  (1043070297961352800, [0x5b5f7f9e]);
  (1043183484164721000, [0x9165]);
  (1043637514456599500, [0x9226949b]);
  (1043751344861605500, [0x5e785faa65fa]);
  (1043865304987898800, [0x5bf874dc95ae]);
  (1043979395131478000, [0x6055]);
  (1044093615589355700, [0x58588ce48d31]);
  (1044207966659563700, [0x7168]);
  (1044551806539867000, [0x51dd67508caa8d2a]);
  (1044666683060254200, [0x593869128a878c8c]);
  (1044781691698578000, [0x6795]);
  (1044896832759082100, [0x55d55bbf5c3a798579aa]);
  (1045012106547063000, [0x62c26eb6]);
  (1045127513368873700, [0x8ce08d54]);
  (1045243053531929300, [0x9a459a71]);
  (1045358727344711600, [0x632f]);
  (1045590477158747900, [0x6555]);
  (1045706553782344100, [0x84c9]);
  (1045822765300361800, [0x535c55e382b3]);
  (1045939112026691700, [0x4e386405652a]);
  (1046055594276320900, [0x954d]);
  (1046172212365339100, [0x625b644a65249014]);
  (1046288966610943000, [0x5e7c8aeb8c0f]);
  (1046405857331441000, [0x93c5]);
  (1046640049475949200, [0x5d888b398c28]);
  (1046757351542185600, [0x971c9a9e]);
  (1047110085593982400, [0x6c5e72f173449500983b9891]);
  (1047227940645926800, [0x576a95a995fd]);
  (1047345934759911800, [0x5480688d]);
  (1047464068264494800, [0x5ef6]);
  (1047582341489399800, [0x638f660f67909f20]);
  (1047819308424931600, [0x70d87bc47c578303]);
  (1047938002800884400, [0x8a858bdb]);
  (1048056838227822300, [0x683d6f2b70e971f477287bc388d9]);
  (1048175815041381200, [0x4eab9ca2]);
  (1048294933578396600, [0x650072b280ce]);
  (1048414194176908900, [0x8cec8d26]);
  (1048533597176169600, [0x72b3]);
  (1048653142916647000, [0x8c9d8d1d]);
  (1048772831740031600, [0x4e73675c6ee86ff17267]);
  (1048892663989242500, [0x51a4]);
  (1049012640008432800, [0x5598]);
  (1049132760142996400, [0x621d6d516e3e]);
  (1049373434146052700, [0x509d655d97cb97e6]);
  (1049493988711587600, [0x556a]);
  (1049614688786591200, [0x590b59a58870]);
  (1049735534722748100, [0x710993ac]);
  (1049856526873019300, [0x68f591ca91cb]);
  (1049977665591649000, [0x804a]);
  (1050098951234170000, [0x58fd5bff]);
  (1050220384157410300, [0x54a659485c6f7518]);
  (1050341964719499200, [0x66ae935c]);
  (1050463693279874300, [0x5ba07b797c4c]);
  (1050585570199287300, [0x9075]);
  (1050707595839810300, [0x6c41]);
  (1050829770564842400, [0x90939127]);
  (1050952094739116800, [0x5241]);
  (1051319967624863000, [0x5662]);
  (1051442893270336000, [0x5a11]);
  (1051565970208949400, [0x4f3d745986589321951c]);
  (1051689198813576000, [0x886b]);
  (1051812579458468700, [0x597c59f965489738]);
  (1051936112519268000, [0x4f505362]);
  (1052059798373007600, [0x5de162e363c0]);
  (1052183637398122300, [0x76df7cdf]);
  (1052307629974454400, [0x4e5e54b35ac26d897eaa]);
  (1052431776483260800, [0x7a96]);
  (1052556077307220600, [0x9375952e]);
  (1052680532830441000, [0x552e7f38]);
  (1052805143438465800, [0x572d87f9]);
  (1052929909518281300, [0x83648477]);
  (1053305144480136200, [0x5bb07b268083]);
  (1053430536346095700, [0x52ee60b2]);
  (1053556085640679000, [0x6e146f01]);
  (1053681792759684000, [0x5e055e2571b8]);
  (1053807658100403600, [0x85fb]);
  (1053933682061632400, [0x5b8f]);
  (1054059865043674500, [0x7ba295ad]);
  (1054186207448351800, [0x6905]);
  (1054312709679010500, [0x682a]);
  (1054439372140529800, [0x85c9]);
  (1054566195239329200, [0x5f997eb1]);
  (1054820324982196500, [0x83ca]);
  (1055075102190076400, [0x4e308ca78d2b]);
  (1055202734626036900, [0x52ea8cb88d37]);
  (1055458489241148500, [0x540f]);
  (1055586612256753500, [0x56bc79bf79c3]);
  (1055714899638042300, [0x5ea28f268f87]);
  (1055843351807278000, [0x53645b2b5f179e75]);
  (1055971969188352400, [0x51885ca163d6]);
  (1056100752206795300, [0x68b0]);
  (1056229701289782400, [0x5587]);
  (1056358816866144500, [0x535a6851]);
  (1056876952740344100, [0x6606678469cb]);
  (1057006907274552700, [0x903e]);
  (1057137030910350000, [0x68da96619ce99e20]);
  (1057267324088391500, [0x582a]);
  (1057397787251058000, [0x4f01745e90029069]);
  (1057528420842463600, [0x62e2650f]);
  (1057659225308465200, [0x533e567797f5]);
  (1057790201096671500, [0x60e06ec7]);
  (1058052668438948600, [0x8c79]);
  (1058315826485554100, [0x5d4b]);
  (1058447665660880000, [0x4fc374f77e107e407ec9]);
  (1058579678881372200, [0x52ef5e3d5f66918b]);
  (1058711866607163900, [0x801981b3]);
  (1058976767424321600, [0x68696a0172ee]);
  (1059109481445127800, [0x8aa08bda]);
  (1059508683572081500, [0x555768ee]);
  (1059642105873395200, [0x527f65f195c0]);
  (1059775706427669400, [0x6b7c6bb2]);
  (1059909485711835400, [0x9214949e95ac]);
  (1060043444204741000, [0x82738277]);
  (1060311900741808000, [0x90389473]);
  (1060446399753341300, [0x57cc66a272ed72f975458d2f]);
  (1060581079908379100, [0x563b66b49830988a]);
  (1060715941695508500, [0x6377]);
  (1060850985605295600, [0x7035]);
  (1060986212130297000, [0x6094]);
  (1061121621765070000, [0x708e]);
  (1061528954303833500, [0x59e56f43]);
  (1061665101363665500, [0x65a4680f6b047f509676]);
  (1061801434036452100, [0x7fb9]);
  (1061937952828986000, [0x9fa2]);
  (1062074658250139300, [0x57ac786b]);
  (1062348631024251400, [0x74ba923e94c0]);
  (1062485899405448600, [0x5320]);
  (1062623356471765300, [0x64349c779cc4]);
  (1062761002742637500, [0x7c3f]);
  (1062898838739649700, [0x5e7d6d59]);
  (1063036864986545500, [0x80c08139]);
  (1063175082009240700, [0x4f51552c85aa8b66]);
  (1063313490335834500, [0x584c695e]);
  (1063452090496622300, [0x8305]);
  (1063590883024107100, [0x6876]);
  (1063729868453012500, [0x6346]);
  (1063869047320294700, [0x6089]);
  (1064147987529052700, [0x7f5593c0]);
  (1064287749955716400, [0x55d85a4675339605]);
  (1064427707991158700, [0x52ed5f6c9ece]);
  (1064567862183687600, [0x88d5]);
  (1064989507221581100, [0x68af847185259f84]);
  (1065130451571904400, [0x634e87ba]);
  (1065271594855745200, [0x7696]);
  (1065554480475792900, [0x64796749]);
  (1065696223943890300, [0x6fa7]);
  (1065838168609313000, [0x85e9]);
  (1065980315044050600, [0x98109884]);
  (1066122663822536000, [0x93cd9d5d9e45]);
  (1066265215521658200, [0x54d75629]);
  (1066407970720776700, [0x631f6b10]);
  (1066694093948880000, [0x931a94ee]);
  (1066837463149064800, [0x8d1b8d63]);
  (1066981038191675200, [0x8a238bc0917191ac9310941c9525]);
  (1067124819668638000, [0x54c06d987433]);
  (1067413004306126800, [0x4fde581558ae591484bf8fb1]);
  (1067557408663350100, [0x6021789f]);
  (1067846844465986700, [0x66fc]);
  (1068137120431782900, [0x632a]);
  (1068282575002882200, [0x6148]);
  (1068428241452528700, [0x9412]);
  (1068574120398894700, [0x829d]);
  (1068720212462862100, [0x68167bee7c43]);
  (1068866518268038100, [0x515453847a837aca9a5b9a7f]);
  (1069159773610166000, [0x838e8ca28d21990c9975]);
  (1069306724408102000, [0x714c]);
  (1069453891469247600, [0x545b54c955c669bb]);
  (1069601275431077700, [0x6fb3859b]);
  (1069748876933889600, [0x62f476fe80158102]);
  (1069896696620820700, [0x52e4]);
  (1070044735137864200, [0x5de262e964c7]);
  (1070490170172802300, [0x5760589c]);
  (1070639090527949000, [0x6c2e]);
  (1070788232986616000, [0x6a3a]);
  (1070937598212294300, [0x5e15924094be]);
  (1071087186871452500, [0x4eaf54a75d847814817b]);
  (1071236999633554800, [0x6789]);
  (1071537300159531700, [0x79507caa7cde8aa88bf2]);
  (1071687789277473800, [0x55435a09621c67dc]);
  (1071838505206531000, [0x88cf909196c7]);
  (1071989448631416400, [0x5b29]);
  (1072140620239948600, [0x503a5c416ecb80c88292]);
  (1072292020723070000, [0x827e994c9994]);
  (1072443650774866500, [0x51f9657783d1]);
  (1072595511092585400, [0x755c]);
  (1072747602376656100, [0x5bd379b0]);
  (1072899925330708200, [0x627380b29798]);
  (1073052480661592000, [0x62f08106865198a0]);
  (1073205269079397300, [0x56e75e9d]);
  (1073511548032451800, [0x4f775a075b0c98fc9972]);
  (1073665040004260300, [0x5ea168c093189524]);
  (1073972732554708100, [0x67706d85]);
  (1074281374775027000, [0x67a26a1e]);
  (1074436053846857000, [0x51af99ae]);
  (1074590972545540000, [0x4e1e64136cfd6fa47d797ee2]);
  (1074746131614681800, [0x535178c5]);
  (1074901531801355100, [0x6bb7]);
  (1075057173856121100, [0x7d8b8d9f]);
  (1075369186589745500, [0x62e764f08f2f8f919576]);
  (1075525558787363600, [0x54d1555e5dfe]);
  (1075996147891105000, [0x64ad]);
  (1076153504335848000, [0x5eb67db07efe814a81d8]);
  (1076311108781394700, [0x6620]);
  (1076627064810431400, [0x737e75d2766279658ed28f69]);
  (1076944022286559400, [0x723d]);
  (1077102878555073100, [0x56ad634572b17f72]);
  (1077421350161825000, [0x532a8d088d609910]);
  (1077580967115107300, [0x4e566c2c]);
  (1077740839251477000, [0x53db9655965d]);
  (1078061352346372000, [0x6f84]);
  (1078221994951199200, [0x630e764c96b696b8]);
  (1078382896031769400, [0x69e680c18105]);
  (1078544056421203500, [0x6fb9]);
  (1078867158479348000, [0x6fee]);
  (1079029101834578300, [0x602f903b908f]);
  (1079353777444465300, [0x5228548f76248a60]);
  (1079516511410403000, [0x4eff541f77209429]);
  (1079679510631496000, [0x51128543]);
  (1080006308307957700, [0x6e857261754f]);
  (1080334177454127500, [0x5371]);
  (1080498516028500500, [0x90a2]);
  (1080663125119167300, [0x6a80]);
  (1080828005618185700, [0x60466052]);
  (1080993158422033000, [0x6d476f8682a584b29ed8]);
  (1081324284552398600, [0x730e737579b9]);
  (1081490259694235000, [0x5fd2637b8017980c9882]);
  (1081656510771596500, [0x590e5d14]);
  (1081989844413572200, [0x558967ec]);
  (1082156928830054000, [0x4e4d659f8dbe]);
  (1082324292885857000, [0x72ac7e43]);
  (1082659863670554200, [0x61d261f668f06ec094c3]);
  (1082828072288852700, [0x70af86db]);
  (1082996564325344700, [0x921e94a7]);
  (1083165340736716500, [0x5c48660285e4]);
  (1083503750535140700, [0x534f53545e0166767d1f]);
  (1083673385859958500, [0x9d6c9e4f]);
  (1083843309435254600, [0x715e93829541]);
  (1084184025267415800, [0x52a78d6b]);
  (1084354819501931500, [0x55d0658c67ad689f]);
  (1084525905942294500, [0x711a71b679608328878d]);
  (1084697285590068000, [0x4e5455ac741b748b776680e493b8]);
  (1084868959451973300, [0x865e923794b4]);
  (1085040928539926000, [0x5df76f587d3690599065]);
  (1085213193871070700, [0x7def7eac8de18ff9]);
  (1085385756467817600, [0x7235]);
  (1085558617357879500, [0x82d4]);
  (1085905238155528000, [0x5470]);
  (1086079000145382200, [0x68978af18bb3]);
  (1086602105087137500, [0x616794ec]);
  (1086777083259516100, [0x69406ec671c38151892a9cd4]);
  (1086952368142257600, [0x90e79116]);
  (1087127960812484000, [0x6d78]);
  (1087480073852341900, [0x8b198c268e019353]);
  (1087656596404799000, [0x516e6b8a80388073]);
  (1087833431110473000, [0x51f85bbe7cca92749451]);
  (1088010579075311300, [0x520a5a345a425afb69ce]);
  (1088188041411148200, [0x99099977]);
  (1088365819235748000, [0x4f7a8f9b]);
  (1088543913672847600, [0x55d4]);
  (1088722325852197600, [0x5f72690d]);
  (1088901056909607200, [0x733f752b8c9c9811987d99ed9a87]);
  (1089259480232388800, [0x65f766e0]);
  (1089439174800059000, [0x54787c28900d]);
  (1089619192850473800, [0x9db4]);
  (1089799535550388800, [0x627064fe]);
  (1089980204072883700, [0x5e915ee162ce]);
  (1090161199597407600, [0x63fd652c93cb]);
  (1090342523309825800, [0x538c53ad]);
  (1090524176402465500, [0x5f0a6376739b746a7b037be484ec]);
  (1090706160074164200, [0x7f8c80969659]);
  (1090888475530315600, [0x57405b878a799c2d9ccd]);
  (1091071123982919000, [0x55b560626e456fe193c1]);
  (1091254106650626600, [0x752f8fab8fae]);
  (1091621079539522800, [0x6902]);
  (1091805072231723600, [0x4fef51fd]);
  (1091989404081152600, [0x590c72d07898]);
  (1092174076340469000, [0x80588c2d902e9756]);
  (1092359090269285100, [0x4f0d752d7d4e7ed77fd87ff9978d]);
  (1092544447134217500, [0x4f695e06604b620074ee75157ba3]);
  (1092730148208938700, [0x52436c16]);
  (1093289329535516400, [0x87499bc99ca4]);
  (1093476420329097600, [0x63e377a58150]);
  (1093663861808532700, [0x5ead6d3a]);
  (1093851655290952800, [0x574e59515e875f27638068ad]);
  (1094039802100923400, [0x52cb52f362c897dc97ec]);
  (1094417161039287300, [0x53ee78be8e05]);
  (1094606375854491100, [0x75f4]);
  (1094795949370981000, [0x832c]);
  (1094985882951346100, [0x59d85d2960dc]);
  (1095176177965954700, [0x5fd36f29947b]);
  (1095366835793012900, [0x672d70db]);
  (1095557857818624800, [0x5a745b305c4e73f074ab8338961c]);
  (1095941000049780500, [0x612c]);
  (1096133123067569800, [0x5a6264ac]);
  (1096325615908528300, [0x59846deb7eba99b19a6e]);
  (1096518479999168800, [0x7281788d]);
  (1096711716774274200, [0x4ea8686869f37d5e7ede82d1]);
  (1096905327676960900, [0x54f256e85c395f25632064937dec7f05937e953a9bca9ca8]);
  (1097099314158743500, [0x59ae5a92665366c9816e8ecc8f689c01]);
  (1097293677679600600, [0x76ca]);
  (1097488419708040300, [0x611a]);
  (1097683541721166400, [0x5e186bc57c3e95509d519e43]);
  (1097879045204746800, [0x7a4e9896]);
  (1098074931653280000, [0x8f1d8f8990ca]);
  (1098271202570064800, [0x4fcc5a7261ff65836bd9]);
  (1098467859467269000, [0x517952388332]);
  (1098664903865998900, [0x4ebe50f56be16c08]);
  (1098862337296370700, [0x634b6e347d087ea8]);
  (1099060161297581200, [0x67df7b8d7bc6]);
  (1099258377417980300, [0x868c]);
  (1099456987215143200, [0x6c2f7aa67ac7]);
  (1099655992255944200, [0x88e489329877]);
  (1099855394116630700, [0x76d48e6696c0]);
  (1100055194382898000, [0x4ed468d8718f7901]);
  (1100255394649965300, [0x660c]);
  (1100455996522652000, [0x51a2585a8a348bc9]);
  (1100657001615454300, [0x55dc612461a48fb0]);
  (1100858411552624400, [0x532368b377db82bd]);
  (1101465086820848000, [0x587d6853]);
  (1101668132575886400, [0x817a8721881f8e6c901d9c139cc3]);
  (1101871591445665100, [0x569c7b288086821286d9]);
  (1102279755277630000, [0x5a325aa76093651265226a598cb68d2c]);
  (1102484463639802400, [0x7b19]);
  (1102895141835067800, [0x509c]);
  (1103307513553454000, [0x63e97f349356]);
  (1103514338859859800, [0x69416c1f9ebd]);
  (1103721592820057200, [0x675e6d9b6fe4]);
  (1103929277214541000, [0x563f68276e836f7084109c499cd6]);
  (1104137393834923500, [0x4f7d5142621e86df8fdd9055]);
  (1104345944484025600, [0x51db51dc655b]);
  (1104554930975971600, [0x50a851325be17d737edb849c]);
  (1104764355136283000, [0x6220707c8e7f8ea5]);
  (1104974218801975100, [0x5514554459da6cfb7009]);
  (1105184523821653100, [0x4ff8]);
  (1105395272055609500, [0x71ba]);
  (1105606465375923800, [0x829c856a868187fb]);
  (1105818105666561600, [0x63428155]);
  (1106030194823475400, [0x5ec96b966dcb93b7975b]);
  (1106242734754706800, [0x5e62680e6adf77d77a3b916e]);
  (1106455727380489200, [0x51347d617edc]);
  (1106669174633352500, [0x63a38c1093ba]);
  (1106883078458227500, [0x68c27464747696859d5e]);
  (1107097440812552600, [0x5b3674e3]);
  (1107312263666381500, [0x639065a56ab2]);
  (1107527549002491600, [0x73ab743c74ca8d299699]);
  (1107743298816493800, [0x640f7194848288f88fed]);
  (1107959515116943200, [0x4ed553a25ec260fa63b366a86ee56feb]);
  (1108176199925452300, [0x66146cbd772f778778f47f0e]);
  (1108393355276803000, [0x52aa52d855c565bf7176]);
  (1108610983219062600, [0x666886fe]);
  (1108829085813698600, [0x6291]);
  (1109047665135696700, [0x55777e3e8aa68bf58e31]);
  (1109706284420982300, [0x5e9e9f90]);
  (1109926791676813800, [0x6487758677bb]);
  (1110147786241894000, [0x51a5814c843c8ad28c059183]);
  (1110369270274849300, [0x8910]);
  (1110591245948680600, [0x6dd880de]);
  (1110813715450891700, [0x5492942d]);
  (1111036680983618700, [0x6893]);
  (1111260144763760300, [0x617068d591e99492]);
  (1111484109023110800, [0x64a967a368d76ede6eef80a2995e998b]);
  (1111708576008493100, [0x56578f5b]);
  (1111933547981894700, [0x7ef7984f989c9aae]);
  (1112385016017347400, [0x87fe900a905c]);
  (1112611516680432500, [0x75d5]);
  (1112838531533886400, [0x54b86a3c7d3f7ed09a579a8c]);
  (1113066062917600000, [0x77e287ad]);
  (1113294113187472500, [0x5993632b]);
  (1113522684715558000, [0x52f6546d5b745f6a690e7d397dbb7ecd7efd9f95]);
  (1113751779890213800, [0x7aa57aba8d168d4e]);
  (1113981401116248700, [0x4ecb58a05bdd5be281fd916f]);
  (1114211550815076600, [0x58306982785578a9916c9474]);
  (1114442231424868300, [0x51b6579258d859726714]);
  (1114673445400706200, [0x674f6dc7819b93a294a8]);
  (1114905195214742400, [0x545059b87078809892c794a1]);
  (1115370312332315500, [0x62ec871c8a708bd8]);
  (1115603684666937500, [0x5398]);
  (1115837602902254700, [0x78258a508bc899c19a739be89cb8]);
  (1116072069598180100, [0x80ef83f1]);
  (1116307087332675400, [0x4eb8543154af56b25986599d5b555bc76097614e]);
  (1116542658701921400, [0x5e4c5e5368666f029017962e]);
  (1116778786320489300, [0x52fb5300]);
  (1117015472821516000, [0x72c48b288c1f99db9a76]);
  (1117252720856879000, [0x690169e8934a]);
  (1117490533097375800, [0x52c368266c108e44]);
  (1117728912232903400, [0x816584c489028df58e10]);
  (1117967860972641600, [0x62238c9e8d1e]);
  (1118207382045237000, [0x808b8a988bf18e6d91e39493]);
  (1118447478198990900, [0x7a8d7ac598249890]);
  (1118688152202047300, [0x51f36084935d96c1]);
  (1118929406842585700, [0x5a43690b6c61845b971e9776]);
  (1119171244929013800, [0x581f9177]);
  (1119413669290164600, [0x51806e0a7c2986808755]);
  (1119656682775493700, [0x58d55e7b6e23835085a6]);
  (1119900288255281900, [0x535353f154aa86d4]);
  (1120144488620837000, [0x4e4f508d]);
  (1120389286784701000, [0x56366beb6fc6]);
  (1120634685680857600, [0x51a852bb8859]);
  (1120880688264943900, [0x560e59156e61]);
  (1121127297514463300, [0x5fbd67b76de4]);
  (1121374516429002100, [0x55f35c515fd4797f79847a468ff8]);
  (1121622348030448900, [0x5f67745b76f27ea48000]);
  (1121870795363215100, [0x8af68c0c90ae90f5]);
  (1122119861494460300, [0x53a8620e78cb7e6c81c0]);
  (1122870803696673500, [0x4f1f6020612d8eac]);
  (1123122376156398200, [0x58517c2c]);
  (1123374583099669000, [0x6dcc7b9e818f8fe59523]);
  (1123627427735005000, [0x75b27a579480]);
  (1123880913295323800, [0x7c07901e]);
  (1124135043038191000, [0x5a065b088fea]);
  (1124389820246071000, [0x4f437f3d88f494b5]);
  (1124645248226580600, [0x63cf693e6a716ae5794e79957d7e97099ef4]);
  (1124901330312748000, [0x615562bf6c4a76c892f8952f]);
  (1125158069863272600, [0x59e35fff682b6ad86e578c82]);
  (1125415470262789900, [0x5ed66dd66e178e2a]);
  (1125673534922139000, [0x589f58a67d358ae18c25]);
  (1125932267278634100, [0x509e52df]);
  (1126191670796338700, [0x5f296ec570b298e29965]);
  (1126451748966344500, [0x65e686958836]);
  (1126712505307052600, [0x4fcf6d9f6f238841]);
  (1126973943364459700, [0x5ce85f5d73ae744b]);
  (1127236066712447000, [0x920094af9e9d]);
  (1127498878953074000, [0x4f3059ec6627]);
  (1127762383716874500, [0x71e574987d107ebd]);
  (1128026584663158400, [0x6b126c7595ca]);
  (1128291485480316100, [0x594b659073bb8205821c84318b0a8c0e]);
  (1128557089886127700, [0x5e008b018c12]);
  (1128823401628076000, [0x891a]);
  (1129090424483664000, [0x64b5650670ad82b899b7]);
  (1129358162260735600, [0x77fe792c8302]);
  (1129626618797802500, [0x6979]);
  (1129895797964373600, [0x69a872b58638]);
  (1130165703661290200, [0x505551cc6208640065196775]);
  (1130707710408224100, [0x55e86bd76f9c703e88779510]);
  (1130979819419660000, [0x51b56cc16d74886c896f]);
  (1131252670884980600, [0x4f6c661966c76b1177847bab7c2b935f]);
  (1131526268866868000, [0x51ef51f169428a3a8ade8bca8c1d]);
  (1131800617461443200, [0x5b73]);
  (1132075720798632000, [0x510f527055d9604369246b0f72ba7b958202]);
  (1132351583042540000, [0x9b41]);
  (1132628208391829000, [0x60736d016f547eca9863]);
  (1132905601080101700, [0x581c67d17c887dbf7ef5]);
  (1133183765376289300, [0x80da8785]);
  (1133742426047153300, [0x80fa]);
  (1134304225277575600, [0x5a4f6c269d729e4a]);
  (1134586312911739700, [0x575e58626fc78caf8d2e]);
  (1134869198531787400, [0x502d8e59]);
  (1135152886665307500, [0x5b2c6127664f]);
  (1135437381878530500, [0x9774]);
  (1135722688776771200, [0x6b237b3a7b8b93e49542]);
  (1136008812004874400, [0x4e1952a381a88fe69ab8]);
  (1136295756247669800, [0x5691719c9943998d]);
  (1136583526230431200, [0x5fce88848956]);
  (1136872126719344700, [0x55786b196f15]);
  (1137161562521981200, [0x578e5ea3601c6190]);
  (1137451838487777200, [0x50268922]);
  (1137742959508523200, [0x59e86f208ff3]);
  (1138034930518856700, [0x52fa6ce382149a3e9aa1]);
  (1138327756496765500, [0x5df368e46d4a6d666fc1773d8730920d949d]);
  (1138621442464096500, [0x6e1a79e97ca09a5f9aa4]);
  (1138915993487072000, [0x81a58d4d8ecb8f67]);
  (1139211414676815300, [0x5811612a62a16384]);
  (1139507711189881000, [0x507f511f66d96c2d763d]);
  (1139804888228796800, [0x6a3173ea]);
  (1140102951042610600, [0x621a90ba955e]);
  (1140401904927447000, [0x5b2e652579bd7a3d90b8934b]);
  (1140701755227072800, [0x55df7b7d7da27db47ed47ef87f00834389208f338f8f]);
  (1141002507333468300, [0x61156c406c8173ee7b2282cd84bc]);
  (1141304166687411000, [0x67836c8571bb779f7b5b7be97d9486f9]);
  (1141606738779064600, [0x68e994729713]);
  (1141910229148580000, [0x6fd2701579e48a1b8bb9]);
  (1142214643386702700, [0x76ac87d2]);
  (1142519987135391800, [0x62ed64b67b7584619320952d]);
  (1142826266088446400, [0x5c8b604d6da76f979327]);
  (1143133485992143500, [0x50fb6b496db5874788058ae68c1b9b919c8d]);
  (1143441652645884200, [0x5c0960f667cf9427950f]);
  (1143750771902851500, [0x641477f678ef83ba8822929893ad94ed9daf]);
  (1144060849670676400, [0x59e95d045dae70d9749087ee895f89bd89c89698]);
  (1144371891912115700, [0x55d26da96f8091c9]);
  (1144683904645739900, [0x558f72717d687ed28116]);
  (1144996893946632700, [0x54016c2b77377dbe7eeb8861]);
  (1145310865947099500, [0x60416d9791d7948a]);
  (1145625826837389000, [0x4fae5bb56eb47d1b7e6d7eb782fb8327]);
  (1145941782866426000, [0x5c657ee0]);
  (1146258740342554000, [0x5e615f7b5fb96eaf781a786f88b18da395d49616]);
  (1146576705634291700, [0x68f6]);
  (1146895685171101900, [0x59ff82ac88d4]);
  (1147215685444168900, [0x53086e8282df8dcb]);
  (1147536713007193800, [0x6cf575387cfe7ea092e49504]);
  (1147858774477198000, [0x5e9069b77f3095bb960e97c1]);
  (1148181876535342600, [0x5321546e606a648264b4832b]);
  (1148506025927759700, [0x62a064738e3993679922]);
  (1148831229466397400, [0x582f5c276096741a7840788c790e8cb38d30]);
  (1149157494029879200, [0x79c9925194c2]);
  (1149484826564376000, [0x5cfb61a86687745f9a77]);
  (1149813234084495000, [0x648571bc76b59491]);
  (1150142723674180300, [0x59975e275e4062c46b8993d794ff]);
  (1150473302487630200, [0x5b2d69986df3]);
  (1150804977750229500, [0x4fd461e173b97a92]);
  (1151137756759497100, [0x5e3b5e586c7474057c9f90ac9114]);
  (1151471646886048500, [0x4fdf55bb56da5b705cd95d1a68466a0a6d1f75977cb095c69f85]);
  (1151806655574576700, [0x53ed65be9119926c94bc98da]);
  (1152142790344847300, [0x54d256605e47769387a887ce]);
  (1152480058792711000, [0x811381bf93ae]);
  (1152818468591135200, [0x62d868287d11803b868a9511]);
  (1153158027491249000, [0x82de90dd]);
  (1153498743323410400, [0x75ae76217c2793a6954f99489990]);
  (1153840623998289000, [0x4fc552e9680b68df718480bd]);
  (1154183677507967900, [0x53a5549a6538]);
  (1154527911927065300, [0x55bd62c78db4]);
  (1154873335413874000, [0x54555614579a5e1b608560a669cc7161775b965b]);
  (1155219956211522500, [0x55db5c985cf477598efc8f7693cc]);
  (1155567782649155000, [0x4f8057035baa61b26a356ea29ad3]);
  (1156267086198252200, [0x7678768287be97af97c9]);
  (1156618580408996500, [0x582265c0]);
  (1156971314460793500, [0x563156d1592e60f0676c936997889e93]);
  (1157325297131305900, [0x639690b1]);
  (1157680537291742500, [0x67ef7aff7fc2919b9e92]);
  (1158037043908192100, [0x73077ca1]);
  (1158394826042980500, [0x5ce35da2]);
  (1158753892856053400, [0x5cc1670b82b0]);
  (1159114253606383300, [0x4f5a655e69397d407ecc9041]);
  (1159475917653402100, [0x5506664c6ad96d9972527de296a89c8c9f79]);
  (1159838894458460000, [0x557056c975847ef1]);
  (1160203193586310100, [0x4ef253a657a358e45ec86d046ee46ffe70ac71307dcb7eef7fd4]);
  (1160568824706621200, [0x559973c877eb77ef7a37]);
  (1160935797595517400, [0x53895c2f667e6943696069d06d436d79804b807e9b44]);
  (1161304122137147100, [0x55fd562456b668e099549bab9c9b]);
  (1161673808325279600, [0x63b067346d9e6df6773082db884d]);
  (1162044866264933200, [0x542d666677ac877689d18a1f8bbc969c96cd9f729f8b]);
  (1162417306174031500, [0x55375af37e58970f]);
  (1162791138385092200, [0x54205a445a9a6da26eb373e9763e766e8b148c1195c59bc79ca9]);
  (1163166373346947300, [0x5ae16df96f417c2f8200988d]);
  (1163543021626495000, [0x5c945ea462d76d5a]);
  (1163921093910485500, [0x622f803d]);
  (1164300601007340700, [0x4fd1557c5cde787c]);
  (1164681553849007400, [0x57a658be66416c3d709671c97b908514]);
  (1165063963492847800, [0x62d369ad6c317aed90c39761]);
  (1165447841123564400, [0x57f99edb]);
  (1165833198055163300, [0x50215daf762b76717ce0964796b4]);
  (1166220045732955400, [0x5d89]);
  (1166608395735595100, [0x6109]);
  (1166998259777161000, [0x5256579b5b7d6a796f7978d07d9c7e547efc95df99f19a86]);
  (1167389649709274500, [0x545759105a4a6a3f8fc4]);
  (1167782577523263600, [0x546c5823592f647a65666ec88757]);
  (1168177055352365200, [0x5b5b5deb5f3d6cab6e80]);
  (1168573095473974800, [0x6d3f70997e557f2e82f79163]);
  (1168970710311938700, [0x776c79fd7a62940f]);
  (1169369912438892500, [0x54959e1e9e3e]);
  (1169770714578646300, [0x6136627c680576009cce]);
  (1170173129608618900, [0x4f36841d863f]);
  (1170577170562319400, [0x70b47410746374d2]);
  (1170982850631880900, [0x5a1367ff7d6e8b3e8c29925794b39d099e26]);
  (1171390183170644400, [0x56ab5eaf655368b5699b6e0e70067a20]);
  (1171799181695797000, [0x62d99b139b22]);
  (1172209859891062300, [0x56e65ba66e757f078549]);
  (1173036310876051600, [0x56185653568e5b9b5fc661b6694488628aa38bec90e0]);
  (1173452111890918000, [0x554055505f709a559a84]);
  (1173869649031966100, [0x5e1c5e5f6d506efb7d1c7ead840d]);
  (1174288936857969600, [0x58c77b017e097f19]);
  (1174709990111604000, [0x4f9759ab6b1382eb]);
  (1175132823722556100, [0x55a7608d61b378377cef7ddd7f0993629aef]);
  (1175557452810701300, [0x5a4564e265ba68177aa17e377f1591f594759497]);
  (1175983892689347000, [0x5ac9693f70037467]);
  (1176412158868547100, [0x588d6cb86e2476c5827f86d388c79ae69d609e44]);
  (1176842267058486200, [0x525056785dcd60e961f265c78a158baa]);
  (1177274233172937700, [0x57436420915a941e96bc]);
  (1177708073332797600, [0x4f5f56765c606fc573ba74bd87f88a168bab941995b99609]);
  (1178143803869693200, [0x502a546f582c5f427da37efb9411]);
  (1178581441329673000, [0x52395a235e8b65ed6bcb6fd370c370f4867b8a628be293bb]);
  (1179021002476976900, [0x4e2b55e665936595694b6a1f7af78936]);
  (1179462504297888600, [0x63cd7409]);
  (1179905964004675100, [0x66de6f7b768e7dd97f028cbf8d389328951a]);
  (1180351399039613200, [0x4f0e4ffe63826d9a73df7d027ea3]);
  (1180798827079105400, [0x53de56ac929194e398ed996c9f9b]);
  (1181248266037889200, [0x4f8a55e162f7695d7a1a80a4819a874e880d8eaf8ec09549]);
  (1181699734073341900, [0x55ec615b70b5725f8317]);
  (1182153249589881000, [0x4fa65075571c67ab69538513853d]);
  (1182608831243467000, [0x5cac609c651866287ae68f058f8292f09502]);
  (1183066497946208200, [0x53e8806a8070]);
  (1183526268871071200, [0x54776dde9f10]);
  (1183988163456700700, [0x53fc5b696d166fc870b381fb]);
  (1184452201412350900, [0x50b25b805fda608a660776ce7df08c628d0d8d619afb]);
  (1184918402722932000, [0x6e2573138087]);
  (1185386787654174700, [0x7c3a8c36]);
  (1185857376757916000, [0x56596669682c7b77959495f5]);
  (1186330190877510500, [0x537953d35bc25e376064615161fe71c27d8f7ee586ca88318c418e81]);
  (1186805251153370300, [0x53fa55d65ba56f5571157b507f038a958bde9416]);
  (1187282579028636100, [0x564e59cf63aa63ba647b6d576da16e2670f9845198e7]);
  (1187762196254985400, [0x506352025b5c65ec6fde74417b167faf]);
  (1188244124898580300, [0x5220522a5f0175727b4f7e82]);
  (1188728387346159100, [0x511a566c64c270b075a47d157e7e7eb07f31814b86ed8fe4]);
  (1189215006311276400, [0x54835825599e5b95757c]);
  (1189704004840695500, [0x6c3e6e2d705983bd]);
  (1190195406320938400, [0x612e666b6a846e70768a7b5d7b8f84df858a99b49a6f]);
  (1190689234484996600, [0x51a95ea869866e4d77627ff0]);
  (1191185513419209700, [0x595a69d1]);
  (1191684267570313500, [0x54e7856893b9]);
  (1192185521752668000, [0x500f52be56e957295fd596d2]);
  (1192689301155663600, [0x531d57c2591b64676cfe6d87708a74b09149]);
  (1193195631351318300, [0x600276af7fdf8e5a942395a895fa]);
  (1193704538302065500, [0x57a2639365826cae8a258bb78bc38ddb9955]);
  (1194216048368742600, [0x4ea550a352b9536f54c25e966e367d5b7ee6818a]);
  (1194730188318784400, [0x539b599261e664b864fc742277bf9355]);
  (1195246985334628700, [0x5a49622e7a98853785b08cd18d488df7927694cf96c99a379a9a]);
  (1195766467022339000, [0x5cea61f56fca6fe0749e76a87e5b942e957095a5960096bd96cb]);
  (1196288661420454200, [0x4f6f5962690870bd71be935894e19d3f9e3d]);
  (1196813597009068500, [0x5f4063b864a365ab6fa17b087dbd7ef08aa18beb958e95f3]);
  (1197341302719153000, [0x69c3717d71b573c57e0b7f12934294249b45]);
  (1197871807942122200, [0x76c277e97ec17f6188b7925995b6960a]);
  (1198405142539658500, [0x5a7f60d164c4785d]);
  (1198941336853797000, [0x5319586c5f836b547fa17fa88845886e889e90c5917f91c091c1]);
  (1199480421717284700, [0x4e8d57e05f8a6078615f83048db88e898fc5]);
  (1200022428464218600, [0x53fe548e93dc9557]);
  (1200567388940975100, [0x4f3a6eba74e27bf78a6d8a918be18bf39479]);
  (1201115335517437700, [0x4e9f5d695e54605a67e97c3292ac94d0953b]);
  (1201666301098534500, [0x598d60c980f090b590c191709b31]);
  (1202220319136096200, [0x663c665d76a277dc7db97efa8abc8c0a]);
  (1202777423641041700, [0x50da5474589258d164ce6ac96cbc711975cb7b20914c99ad9a6d9ecd]);
  (1203337649195908700, [0x5e07637a685069db6abb6cd772fb77738475981c988c]);
  (1203901030967734300, [0x51a76c9370f78f1f8f8d98719885]);
  (1204467604721302000, [0x504350ee553058ec65c28f618f949f9a]);
  (1205037406832765800, [0x525c54845d8f620d67b06f33]);
  (1205610474303664300, [0x5189562d5ed366f36c836de56e0c6ed58574860a9d9a9e57]);
  (1206186844775339200, [0x5a2168456ca78de4932e95229efc]);
  (1206766556543771800, [0x51ad532654fa5c7f5dbc63366d8e78657dd27eea867c9508]);
  (1207349648574851200, [0x54435de96d1381fc87c68d5f8e1e]);
  (1207936160520091000, [0x556464b96c326c336db3710a784c7c248237854a86a79478]);
  (1208526132732809800, [0x51ae557e61c8639164bc66e6680868e769b48b2c8c2c9b51]);
  (1209119606284791400, [0x53b75d486d9c6da36e196f5e757976388b0793bd9df29e6b]);
  (1209716622983441600, [0x65566d39740f83869826988f]);
  (1210317225389462900, [0x592d6c7d6d9d6f876fc970ab75e278527b6b85d3861a8b748c3497cc97e799219985]);
  (1210921456835059100, [0x553e5f6861bf682d708675e378fa7be17d137ebe86fb871589e5914b9de69e6a]);
  (1211529361442697300, [0x68ff707f71e6735082b78b65921094a4]);
  (1212140984144441000, [0x542e5ad65f18620a637168be6b246b5f840c851a8be08d058d58943894ce]);
  (1212756370701878700, [0x678c73b280068389964c]);
  (1213375567726671000, [0x504854a85e59618e65cc70ef7baf8aee8edb8f6d99a8]);
  (1213998622701734400, [0x4fea715a947a958295e999d29a179a79]);
  (1214625584003094000, [0x5ca36571659b676069d36bb46bc66c8f74d179c67a08889c896a95f0]);
  (1215256500922420500, [0x5406569357c65cab5cc75e1965d366df681370b77b0682708671]);
  (1215891423690286300, [0x55f55dc565647b0b7b4d7f4495bf99ff9a8f9eff9f0b]);
  (1216530403500163400, [0x572a594e5b685ced714775d87cdc86c6937a9517]);
  (1217173492533192600, [0x51c45208538d53995be469dd6d916f5f75747587777979488654936c9539]);
  (1217820743983754300, [0x4edb54666bef6fcb74577dc47ef2837c94f39ecf]);
  (1218472212085873500, [0x504e59606226631a6a506c826d3c753a7e937f2882108cc48d3f95fe]);
  (1219127952140489600, [0x56007d3c7ecb7fb680c481bb86509b779c7f]);
  (1219788020543624700, [0x7d878ce89425]);
  (1220452474815491500, [0x6f1373d7747774a6757b769d797779b17c8d8a868bd3936a93bc]);
  (1221121373630571200, [0x549454f557935b62607a6137756b797a9100]);
  (1221794776848705600, [0x509557845b165ca2643d66da7568835a83a29d069e29]);
  (1222472745547243500, [0x4e15539c5b755d275f5b679f6dfc6e0d6f2c75c876708a48]);
  (1223155342054283600, [0x56f757fd5a475b93675373c07c7d872587e0]);
  (1223842629983059600, [0x54c658ca5dfd665666896bd3857e86e48a6b8adb8be78c00993c9969]);
  (1224534674267517000, [0x574d5acd638d7afb7d337ec59471]);
  (1225231541199126400, [0x4ea2528552af5b285bda60ed615a69fe6ca66ccc6dea7729]);
  (1225933298464991000, [0x53f5549d565d58d26d4977b3926d947e94bd9b8e9c87]);
  (1226640015187300400, [0x539555755ec15f5c607b60fb658166916854691f6add70b6787782a6934e946b9b509e7c]);
  (1227351761964186700, [0x52b152f5536e54ad5e34612f69ed7172723f72e175a37ee981e78ccd97a3]);
  (1228068610912047900, [0x4fa34fb64fc14fe3576f5d025d975fdb6e32784e7f0c7f4580eb811b91f7948d9821988999e29a88]);
  (1228790635709396600, [0x52c9566a59e45b09603c75f975fa8bb5919a934d954095b098f4]);
  (1229517911642304600, [0x4f6550c96130614a64266a406f6f72727f2181c188398b168c219980]);
  (1230250515651511900, [0x4fe8513c54825a3c5e9a7230799b8b4f8ba5922e94cc]);
  (1230988526381274200, [0x536367ca8acd8be49278941894f096b79f5c9f87]);
  (1231732024230026000, [0x5ab36dec7b1e7e9886c08e4893c695c7]);
  (1232481091402941900, [0x56a65a085b4c5bd06ca370437280757f77367889796781ca8682879e959196ee9c789c88]);
  (1233235811966480000, [0x5a7787af96689695]);
  (1233996271905002000, [0x561f59de6f3170117af588e893be956695cc9611]);
  (1234762559179559000, [0x4ee1525453cf5ad45b2a5f115f1268356cf36d0c71e7761f803f8a618be98f3b8f909bc09ca7]);
  (1235534763788950000, [0x6b6775d47bb893a994e9]);
  (1236312977833155500, [0x69456ddd72bb7b5c7c39848084e786b48a758bdc956b]);
  (1237097295579258100, [0x53c653e756e459085a555fad60a7673d69576a587cb27e9c7f06830983b989259749]);
  (1237887813529969300, [0x5e2b751176567c2a831c86e98e0a8e349104]);
  (1238684630494887000, [0x4e5251f062927e1e7f1f809b82c78466879b9c5f9c8e9e35]);
  (1239487847664613400, [0x62cb6daf786a949a98e899579b479b58]);
  (1240297568687875400, [0x501e5156609560a073db7611762e81ba83c78912912392c89e159e2c]);
  (1241113899751791500, [0x54d05a3f5f7769846b1675ab795b964b984e989a994b9988]);
  (1241936949665443100, [0x4fed501451c753e155f75f2c63bc645c645e64c07173777e7a39869c8e4b942b954c9995]);
  (1242766829946912600, [0x4e69502957685bd45e1a69ab6da46e406ecc732c756c757e7e0a7f22816d826e853c85f98c049167924d92ef937694cb; 0x95069536]);
  (1243603654913964200, [0x50a65594783e792b9ae1]);
  (1244447541778550600, [0x56085a045a415e3f5f416dc070fb8a7c8b8e8bd99410956396e0]);
  (1245298610745341600, [0x4e5359c964de68096be66c7272f2733b736d737a762a765f7bc0]);
  (1246156985114480700, [0x4ec44f0051bf5bc563946c9b728a72a27ec295e19610]);
  (1247022791388792100, [0x562359f35f3c68616a486aac6b936bae6dae6dd9715c783a792a829f93a794e0]);
  (1247896159385667600, [0x4eb55306533f56ff5cb76d3d6ed072c576737aa07c96893b8af38c19956c9ac1]);
  (1248777222353883200, [0x4e47531556ec5fe56615866293d0956097a09dd79e259f5f9f83]);
  (1249666117095607700, [0x56ae5a9b5f1b60b669c86c296ce67df27f08811081cd86a690ea94a5]);
  (1250562984093883800, [0x56795d035d0d5fe460bc61be6427656f6c7b747e74e775ca8042807680aa8c2f93709433953e956d983998939c3b9cd7]);
  (1251467967645875500, [0x54a354dd5665608666e173d174cf7e5a84fc8a6c8b208bdf8c238f9c904f9239929694cd94e29b749c82]);
  (1252381216002202700, [0x53fd544e55c456305a407c9081808ae28afc8be88c169d199f549f80]);
  (1253302881512695200, [0x5201535f58c259fb60356a4782c184ef86cf87f68b928c178cbd8d3b8deb8fe890b991129b839c86]);
  (1254233120778926600, [0x5e8066806d306dbf6ffa768b7f548244874c887e8b9c8c20916291ae973e]);
  (1255172094813910500, [0x516251aa52155d415e425f475fd666ea677d6c7e6e5c6f3e73a07b2e7d3a7ec09b70]);
  (1256119969209364800, [0x5f4860c268b46c366ca56f57701d7110728d7bae7c827fce80b4828b852a85af884f905b907d91af92b6934193b19528; 0x9903997a]);
  (1257076914310980000, [0x50a9513a547657ad59a463be6664692d6a6271b2749f7ba97c6e7e597e9b8a7f8a9a8bd68bee8fef92549bea]);
  (1258043105402153600, [0x612068866b7f6b8176f982f9942c9f099f0d]);
  (1259018722896690000, [0x565c566b569567a168ec697770c1720d75c975d9783b79318340873788139f6c9f89]);
  (1260003952540991200, [0x4f834fda758375ea761379f87ca8827d8e7c90d39106922794aa]);
  (1260998985626308000, [0x5585565459a861776387643f64bb65c36e3a6ec26ee6706470c77232727480048cb28d408ed39290941a96cf96db]);
  (1262004019211658200, [0x580b594159695a0d5b7e5d0b6441729275607bd97d8d804680f189ef89f691a49b349e9f]);
  (1263019256358060000, [0x58c55c905fb5693d7396750478767e467e887f2a7f2c8c5a90cf914692bc950995bd960798bc98d59b039dc29e5e]);
  (1264044906374779000, [0x558e56015f585f6460636087639e66dc6bca7a517a617b9f7f817f88852b87ab8e149096958695eb9ab0]);
  (1265081185078333600, [0x5bf25c1566096ca46cb16d1c6f1a724d73f2743f761b783d785079467a797ff1823682ad85dc870388c6896096089efd; 0x9efe]);
  (1266128315065063000, [0x500c5a1b5a315a755ae25d3d69a76b7971eb729f7329736c7566789b78e78b599bfd9cab]);
  (1267186525998116800, [0x53df55dd59d259df5b40607f60b460c763ac660a68a774267519753e76347b3180cd821b8bbd8f458f959c489cd5]);
  (1268256054909791600, [0x562b5d1061a1631d63ff646264b364be656e6a386d546db886a48bfd90f4948395d395ff97ab98e999689a6a9a8a9dbb; 0x9e589f609f86]);
  (1269337146520213200, [0x4f754fac563257095c0c662266b269546e5f75b9776878067b2b7cb17f9f7fa5833584188a848ae48bd48c14925e92a5; 0x94ba94f19f2c]);
  (1270430053573432000, [0x56a35aed5d82668d6c1b6c5b74357b257de17f17828a836983cf851785ce991b9984]);
  (1271535037192090700, [0x60f4672771ce7360738e7622769f7dac7ef6809f80e790af97929bad9c91]);
  (1272652367251903300, [0x53a9551157d7596d5fdd60e4623e684069ca6cef6d5878817c337c74852c86c98e1d8f128f849131936b]);
  (1273782322777296500, [0x4e83527c532e533159445c596d5e6d956fdb70fd829082c4876087db88f38c508e30933e93e896f999d99a019a789a8b]);
  (1274925192359658900, [0x4ff352ac6016608e6c5c709d719771a874e4752582a482aa8cfe8d5c921592ae94ae]);
  (1276081274599766300, [0x4eb44f154f5e519754215a6760af61ab6cd36de66fc4701a72d673ef795a7bb47c8e7fca8a638be38c89]);
  (1277250878576085600, [0x50135b7a609a7049723b7f2d893392ab94ef9edc]);
  (1278434324340785700, [0x5b8465c668416c2a709479a87a3c7b997e4d7f367fe68cc38cd28d418d4a9615]);
  (1279631943445457400, [0x53ce60d5620c67c76d9674ef750c774c88f18d138d438e51954597169ab1]);
  (1280844079498691800, [0x4eb3519553a353b455d160c065c86e6b76b47aac7afd7b008188829782e4858c8b2b8c2a8fc2915d919e935e993f998a]);
  (1282071088757873200, [0x547154d556665d74678b67c967da69346a3d6bc2711871fe763f766d7d857f9a82cb840389f3949697d597d997ea]);
  (1283313340757729000, [0x555c55d35d1b643169786ac4712f742a88928b178c248f3e8f97916a91ba993399679afc9e82]);
  (1284571218978415000, [0x4eb651cb567a61ca621b654a65f866986f47701f7113766b767279fa7b247cd9815382798a4b909b941394d4]);
  (1285845121556158000, [0x4ee85139556c55c755cd5d3e6395657c663566b16c76702c70ca72e9765e766977c778b478ca7c9c7cf684b48e2e90b3; 0x958c95f69f669f88]);
  (1287135462039748800, [0x51fc520d521655fb565856df5c345c375ee95eea6c39726f72cd775177bc7b767e327f27811882bb82cc836884078541; 0x86a991d993d8948b951d95359c0d9cc5]);
  (1288442670196484100, [0x54fd5ee85f49612961a76b4671b9735778ec79417cbd80c282a182e185cc86a186b694b9972d9744]);
  (1289767192871486000, [0x4ea35c7b644864ef693c72f8761876a57aa37ca682be841c851186d886f087c48ac98bff8d3292a894f5994999919d1b; 0x9e33]);
  (1291109494904700100, [0x539d559f5dff5ff1657e67a96c216d2e6f6778b278fe79577d097e457eab7f2b85ae85ea88728a528bd28db18db28e74; 0x9621984599c7]);
  (1292470060110278000, [0x59195ab85b5a5d4a60e662196397750676097b947bd37c0d7d9d8284866c866f86ac87069432956f]);
  (1293849392323511600, [0x51a6562c57db5874596e645167ac72c872fd7bf17c6c7e117f2382a88385849e8559866e869387e393c7955f982b9837; 0x9894]);
  (1295248016520985600, [0x512b553457735e116175652b661e68a975bd78f179477c0b83c083c1880a8c1891b4931d96a7970498c698d99ab6]);
  (1296666480020181200, [0x4e934fe65114539459af5c3b5d2464fd66dd6c556f6279297cb780ae828f82b9830f8622869d87128df88e558f99960c; 0x98eb996b9d529e2e9e469f8c]);
  (1298105353765391200, [0x4fa5501d527353da579957d458bf5d2167206860690f6c186f65748075e7780779b37b0f7d217ddf86418816888588ca; 0x9d899e519f8a]);
  (1299565233707506500, [0x53d555f25a055a6d5ea0616862bb634d68e668f969306a186daa6e476e6e6ebf7c1f880e891d91aa95be95d096179ade; 0x9c549cdd9f19]);
  (1301046742286020600, [0x598a5ab45ce65dd26106631b64ba651b679267e2695969886f66795c7afa7c267c9b7fa37fa7882191fc9312938f9481; 0x95159be19cb1]);
  (1302550530022474500, [0x4f035101556755cc560c561659bd5a7d5ae464b16cda6e4e6fd9733174ff75787827796f798e841285b986f488108afa; 0x8c1a92a3930194f7951e9606970e97b49b239b929c8b9ebe]);
  (1304077277235553500, [0x4e5755b3564c59db5d345ebe642164376dab72ce75b5774379667caf7e527f2f7f9d8002814682f884d6868b86d18acf; 0x8b108bf98c27940394d9]);
  (1305627695889150000, [0x58605b345d3c60b860eb654b65c468326fef7436749c7d8e7e477ee180e583e989fa8a37917593b5955395c895f1960b; 0x9b299d1f9e31]);
  (1307202531585963900, [0x4eb94ed1578157cd5b6a5b7f5c9a5f5f5f785fcb634c665e6e5b758d7a877b187cc17dd77dd87de87e357f047f0f7f26; 0x81fa828e82f48b058bcc8ed48f6b905192dd9463950a957395c39612]);
  (1308802565720608000, [0x510657c45be55e095e3a5f4a6026619c680a686469bf69fc6a0b6af36b0d6b596d6171b4759d77d67d1e7d917fb27fd5; 0x8132828d886988c98a1d8bb695b19873989e]);
  (1310428617807786000, [0x4e284f13557b566f578558df59c75aba5d99606c62ca68ed6a176b836e086f8e714a73917db87eb681c382e3987098a6; 0x9a819b439dfa9e6d]);
  (1312081548002907100, [0x4f32540b557f55ea578f5b245b375f365f575fcf601b61fa6217622766906787678869666a096ce06da06dc46dc56e86; 0x73f6772c7c937e4e868d87c089558dce8dd78de3900b901194769730]);
  (1313762259834545200, [0x511753a0546b567e57af594259505c305c915fa861cd61d46b866de06def6f886fec727873d074887e3b801881988203; 0x8225823b826b82ab8df68e82906f924893bf93ca94ca95e595fc9bdb9cb7]);
  (1315471703170475200, [0x4f724ff6579d59ee5d085ffb608c62eb66d8674c69636ace6c306d386e436e8f71317317758b759f7a177a787aa87b5f; 0x835483b88553855588448a8a8b04931e936193b0955296429753975a976597f6]);
  (1317210877441662100, [0x4fce54525472558c55be561e563857a85b6c5c785d0e5e13624866b969fb726c74df77be7b047d267de586c487318739; 0x878888fe91d491d5947c9487948c9701973d97b99ac29dd99e37]);
  (1318980835151602300, [0x4f57549b54a956805b995e7761b76308657a68756a006c256e8d6ed46f48740e74a174ad752c763a772678297e08802a; 0x8249842686a88e3592e8950797de97eb9ba69c969df89e6c9eef]);
  (1320782685701870000, [0x5396544b56406004616a68bd6995772e78397a9e7d067ea1809381488339836a84c0859c860586de87178778879f9780; 0x97ed9aed9b3b9b689c809d429e3a9f17]);
  (1322617599568689800, [0x4efa4f064f885293546456e557b05dfb63c664ed66a36a2f6aa36c706f6a72c17663766c78877b2a7b387d2e8792883c; 0x8ab68c078d178d5d962c]);
  (1324486812869905000, [0x52d0590259d95a295a7a5bd85ce45d465da05f0861cb621563ae6ea573527398740a75567b157b677c8c7cad837b8446; 0x84aa877088828cc28d42929392c3936494e8951295389aba9b329b499b4e9d269e2f]);
  (1326391632366974300, [0x50d652f053f454075419555657b55f1d602b610d65fb665f668566e2677368676a5b6a9c6acc6c1a6e76704471237166; 0x75c2762f773378197826785778fd7c417c5f7c8f822b83f0869186f287ef8c5590a993069308951695299794992e9963; 0x9a439aa09ac09adf9d309dc19e39]);
  (1328333440952684600, [0x5038531a534253a454bf558b57425b175d585db866f767d86a3770307145736f740775b176b077f879e37a957bfe7d0a; 0x7f8d812f840e8690891f92df9421951396b3977a97b29b3d]);
  (1330313703682302600, [0x4e5c4f6454b4550f555258445cc45d835da75ea561ac66346662677268dd762078237ba77bcb7f747f86807f81ec846d; 0x84e68a588bce8c7a8f258f8a91e7948f97a8987498a79a059a409a939ab79cb5]);
  (1332333974414054500, [0x51eb52e853fb554b558157d958645f37600560066134626a636b642a665466c46a616e6d6f6470aa755a78a3795f7a70; 0x7f7d81b2870787e2887f8cab90269090941d9c299cd09ce79ee5]);
  (1334395903134328200, [0x5128556e56d3580758c3592459e6645d689569ff6bb36c056d33742e7b337bb67c9d7cf27ee880b7831a84e986b9902f; 0x9201924592a6949c94ab94df960496b99b2e9e11]);
  (1336501244054111300, [0x504253b6553f556155835803587e5bf35d0f5db75f2d6260631e699474247594768877c9782d785678647866790779f7; 0x79fe7a237a4c7a887b937d127d887e7d7f2482ce82e783ea86f387848b9e8c338e128e26909590fe912f943e9a249a99; 0x9c089cbd]);
  (1338651864576207700, [0x55e559e25b015b325d2d5e395ef45f8761d7629f647666776ba26c196d4f700f79e77f1c823e828890359044921194a3; 0x9546960d96b0977c9785990d9920995c9d079d239d979e289e2a]);
  (1340849755248085300, [0x4ede509850db530d54905558581b5abe5cb55e0f5e435f6e60ee65bb669f68256ac36e536ece762c7aad7ab67afe7cba; 0x7e397f25824f83658af78c988dba8e76927f9363945c94ea98ea996a9abb]);
  (1343097040833291100, [0x502851bc526454f1552055cf5627562e5776584f5caa5d6c62ef69f26bd07325773b78d47b3e7c697d9e7e3a7e797ece; 0x7f0d7ff380e8815681d1843784d1855685a1867f8806881589d089da8dbf8df98e9a923f925a946894bf94c697e39dd3; 0x9e679f3e]);
  (1345395992655760900, [0x4f9152d65418579557c7589658a459f15d1f5f3b6042637d64e465ce67106aaf6f566f5a709c715274e0759a7700782b; 0x79c87ab87ad17b0c7b667b6e7bb97c7c7c957d2c7df77e0e7e627f0b8021829182a983bc84f4892189de89f48d73918c; 0x939d9482948e9537958099939e1b9e739f4e]);
  (1347749042396780300, [0x4f94553355b957e75ae85ccb5cd25d095f2261a961dc63f5666067de6a3e6b926b9e722878117817781c78687b1f7b47; 0x7d297f427f4c842485a886b0877d89038a038ba38fd38fe990879af09bd69cad]);
  (1350158797554686400, [0x4e6c4f124fdc510e530f555359c45ae65c9c5f0b669268b76ad36f4d6f826ff070a473d274d677ad7cbc7e1f7f1b7f79; 0x824c82ae8313836786b186d08ad78c028dfb8e8b8ec69052933695bc960f9911997d9ad49b9b9e1a9e66]);
  (1352628058813723500, [0x4e364e6a5041505b51335579569f59f45e9b61e064526579668467b368ba69966ba16baf6bd66e166e896eb272567260; 0x72ae734a752077cd790b7c3b7f947faa80b1828983d487ea8d6d91a19a659aa59da99e5c]);
  (1355159839612152500, [0x504c5056531053ff542954ee5591576257e259645ab75d5d5d815f595f7465d26883696b6b4b6ba36cdf70fa73f5755d; 0x764d82c88392851b85f6863c86af871a881b88958a928ad18bf68bfc8c328dcf8efb8f468f728f98940d9abc9b1f9bff; 0x9c569c6d9c9a9cca9cdc9dda9e689e719e7a9e7e]);
  (1357757388252478700, [0x4ec94f054f585110555b573b581e59ad59cd59d75aaa5ae05c4c5e445e5e631965786600662a66a0684968d46b0c6d6f; 0x6f6c7144719871ee754d7809789378957e8e80bc80e981b5835e854e85858611867a88fc8cda8d49906c946d950d9518; 0x9567962a97f9991d9a4e9b4d]);
  (1360424212960694700, [0x4ec3507b50c2514f521e52d75349549654cc554955c955eb56af56c1586958bd5c135d6f60d8638b678269066a6f6e49; 0x6f2a70b1727a72a7742f74d8776b790c7ab37be67c407d867f777fb084b1883288a288df8983898a8c5e90be91f993ee; 0x93f5949594c894e79c5d9cbc9cf69e229f94]);
  (1363164110379506200, [0x4ec8529a532d553a56855bc0606b628d663166db689668fb69586cf86d26721e749d74a374ae755b7953815a823483fd; 0x840484bd86f186fa8e60909d913a928e967c991299819af99b089d539e41]);
  (1365981198076175800, [0x4f7c505350e6511c556f5fac5ffe6b876bec7080718073327337735974e87d2a7d318026824b832483aa86ce87138823; 0x892b8e0990ef9143917d91c5920b92a094d19b909c909d989e55]);
  (1368879951763501000, [0x4ef45113542358b05abf5ada5bd55bf75d2e5d315d32618962fa656b67d9698769e26aec6c246cad6e737066731d7444; 0x74e575de761d77bd7df37e6f82b486a38f2390ff943a94db982c9852989998e09acc9ad59b359c589c9f9d1d9d879e2b; 0x9e329f4f9f51]);
  (1371865248078469000, [0x53455454553556a758195aea5b725c505df65f216266666369d46a066cfa6ffc714d74a0756776077777789c78e37cb8; 0x7f7180ad82ca854885cb87ca8b6c903f909a914e924993a194c9954395a1960297069b819c859ed0]);
  (1374942413945144500, [0x4edd4eee524e545356c857a15ad160cc60da610e670a68c16ce76d0f6f6173f7759675e876377646766476997a147a68; 0x7c997cb47d077ea57ebb83108398839e85c188f08dae8e1c91229338936893b3942694fc9827]);
  (1378117283776602500, [0x4f1450f05109527d52e3560f58f9595859f55c495c5c5d065eb95f38668c68316d526ef8717a77a977da77de7cb97de0; 0x7f147f5f7fda7fec80ab83ae8401859486a089668b7a8c738e698eeb8f78911794d6955598b698d39bd49be49cb29cbb; 0x9e8b]);
  (1381396266058901600, [0x4f8e5062566459ea5b4e5b655bf65c035c255d305d525f5e5f7e6126612b619264506465672669d76ec16f987242725a; 0x729673167440769276a676bb773a77a07800781878477b237c357e2f806380ec815d825a836686aa893489648b1b8b95; 0x8c308ea7903692e693ff9449951495ab9603965f977398dd9acb9ad69edd]);
  (1384786421226469800, [0x4f82501b510b53935456567c568857d8585259b359fd5afe5b005c79605360db61af61c663b4687469ec6a446b8f6f6b; 0x6f74702670e870ec71fc741375a5779177fd789a792e7b0a7bb07d2d801c805280d7848e860f86dc8e7b9021915091ad; 0x92b79365946094c4953295c9966c96ce9ac59acf9dbc9e63]);
  (1388295553207596800, [0x4e7a512d51f553c154e055fe5733573758a15ad25aeb5af15b195b215f7f5f986100622262466249626265d665f066be; 0x68cc696f698969c16ad26af86b8c6cf26ecf6f45724e734b7548760e762876bf77077738774d778f77c0781d79207962; 0x7bc17ca97f687f7f7fbf80128028808080f4822f83b3849485ff8629887d88e589498ac48c068dd68ef48f548f9a8fb6; 0x91bc91d0920393159498951f953f954e96499658967d994499979a9f9b489b9f9c319c47]);
  (1391932317624684300, [0x4f2950105017501c5092520454bb5576572e5a7c5bdc5c4d5ce55d225d335d4e5d6b5e245f7664d865496657674567b9; 0x68296b396b976c136ceb6cf66cf76e796e9f6fa9702771b3725d73b37513755175ff7608761477587a9b7af37c5d7d59; 0x7dde7e2780d98238841184ff8adc8c0d8e53902d90dc934c93f49657976c9ea99eb89f299f379f46]);
  (1395706350422968900, [0x506650d754cf572f57c557e157ed5ec65f4c63126477663066a766d66a666ae06e446f446f596f76716d717f734f7395; 0x76cd785978d1797d7b717bac7c9e7e4a85c2861686f88a108ba68bcb8c3f8d048d148d3d8d518d67910f913994859763; 0x98ba98cf9a169a9b9b2f9b5f9cbf9cc0]);
  (1399628421738297100, [0x4e984e995089536c541d553b5670579f59cc59f85ad85d5b5dc85dfc5e5b5f3060c6632763ce67be6d4d6e546fae702f; 0x7037708570f675eb7b687c207c7080db8167823383c5855e85b785d0873d876e8790897b899889c78a418a5b8bc28bc5; 0x90889099931f944b952a952c962f97bb99a59d2f9de59e369e389e879e90]);
  (1403710621190322500, [0x4ed0518f520e526152ad569256ea56f157de5a0a5bd75d0c5d1e5d205d425e145e985f075f4d607d60a560b060c162ee; 0x6326648464ff6516663a669a677c686268b6696869df6a536ab36ab76c686c776e186ea76f2f70dc71787223746d7540; 0x76a076e57708773f7812794f79d97a867b457b967ca27f7e810d81be822882688334835f83df861988e28a228a318ace; 0x8b5e90b691a393aa93d6944a947794da953c954a957a9ad19d6a9e4c]);
  (1407966582632202300, [0x4eb14ee04f0452625284556d56c0576d5a6a5b515bd95c2a5f5460bd628962e462f664b764f7669d68d369036a886aad; 0x6ae46b9b6bda6bf56bff6d0a6d356e116e5d6ed36f7c6fa075a1760d764b793b796b79a77a6c7ba47e5d8027802c8037; 0x809c82a0835183d884d3859989af89cf8b558dde8e928f288fd58ffe9016911c9428948495449562969798ae98d1]);
  (1412411758889285600, [0x4e3350165050543654d9579057b65809585659b25a205ac65ac85adf5b8a5c2c5cbd5d175d445ef55fb36019608360d4; 0x619e647d662b668e66f668eb6b846c35743075647639777677b078697ba87c2d7c5c7d8a7e0d80dd80f3832d833183f9; 0x86ba890a89bf89cc8ce18d538dda91b5937f980e9880988e99f89a8e9c039c899cae9db99e6e9efb]);
  (1417063760452774800, [0x4f274f2b509651bd528154165586566357dc5a3e5ab25ac45d155d385d615d6e5dc25f565fbc60cb61536194624c6304; 0x6330633965096535661667e6688c68d968ef69106aab6ced6e2b6e636ebe6f09750f7569777d79427b077bfc7df17df5; 0x7e877eae7f117f587fe1814982b282d383e18495860b8d078dc48e4c90bd91189490981e98209a2e9a9d9bdd9bef9c39; 0x9ca39cb49d5c9df49e479e489f2f]);
  (1421942776869718000, [0x4e9c5057510c52d453b05402543254d454ff554155f6577757aa5af55d1161966544667066a166e96777680c693b6a78; 0x6ae86d317162723a73e373eb764278e5790a79c57b707d247d52810183018315837083a8840b84d5853a858f85fa8ac2; 0x8b568c2e8c8a90049005909790c490db915e91a294159445950e968d970398c098d7991e996f9b9e9baa9c409c429c94; 0x9c959cc99e889ec59efa]);
  (1427072106308473000, [0x4f924faa4fe750a550a75115513b527852a254595621573c57d258ad59065c6d5d265d7a5ddf605960a160bb611b6271; 0x6332634763a1646d65ef666567a5683b68ae69be6a9e6aa06ab66aea6b37711c721b72737348734d73a1769876a77746; 0x77ec7cb37df87fcb7fcc8171817484068579857a87df8c688dbc905090b09110914a923a929a92e5934693b2949494b0; 0x94eb9503958895ec96d3980399749c4a9f02]);
  (1432478828435500700, [0x4edf502c507e50e8515551d653a75400541254a454f3552356735739578a57bd5885589d58c458d959aa5ad75fd0600d; 0x60c8615d61fd620662076214632263c4641b649f652e659d6661667367fb68006894696e69d26cc56f3d6f4c70bb727b; 0x736b74a874f4754b75f5769e76c977d978437b0e7c2e7df97e4b81128360837d856c85ba86b587ed885688648ba090eb; 0x911e916492e99331940794d39672993e9987998f9b219b469c529c9d9cdf9d569d7d9df69e1d9e429e699ee09f59]);
  (1438194669819495500, [0x4eb04f214f494f89523d5240528a53a154de5528553955a657d3582058a759a75ac35c735d475ed25f8d60e3653265ee; 0x66296767689868bf68d0691369e069e46a776aba6ae76b9a6bab6d446e9e6f8d6fd17028713a72d9733e735e740d7483; 0x75817a367b137ca77cc77e3c7fb8801381a681c682548298839384b9868788e3895d8d8e8dc68ec3917992bb963197d8; 0x985998a199319a369a649a7a9aa79ba49cda9d709dbf9e5a]);
  (1444257132001139000, [0x4f1d4f2c5027529955a8567b568f573e57c158bc58c8592859c85a735aff5c105f6b5f865f8e604a611461d161e36313; 0x633c65316636667d673767446ba76c466d926df86e306fc3714171ca72b47341745a74747517754e75ce761c7630766f; 0x7718797b798679eb7a037a807cab7d967ddb7f7c7f91819181cf82218347835d83dd848c854d88bc88ce8c808db58dec; 0x9079908390a890f790f89132938093919be79c259cb39ccf9e149e9c]);
  (1450710984114896200, [0x4efc4f5d506c513755015527556b568756a956e157e557ee58895acb5b915be75c175c1e5c8c5dc95def5e305f435f73; 0x5f955fa06008622162256475655f6713673e676a679867e8683e698d6ac66b956c966d006d036d116d276f4e704a7056; 0x709f73027365737473a673d973e574a97615765a774f7750775e786d7b857b9d7baa7c1e7c427da681dc81e283c384cd; 0x86d686e1876887dd89d48a0c8b068ba7904a90a091619266926894b2973a98b19b8d9bf09c1f9c239c2e9c4f9c8f9ca5; 0x9cb69cc19cd19cd39d129e309ebf]);
  (1457610271263591400, [0x4e0c4e424fa9506950885108510a526052665639566956715783588059ce59f75a965ab05ad35bac5bd65c055c225c7a; 0x5d125f7a60ad60e560ec6118611c617361c761d9631763dd64106425642b643064716527675a675b67e467ed6855685c; 0x68c669d86ab06ae16cee6d486e3f6e556e5e6e966f21703b703c713c722b742c7523776a79497c0c7c257db27e4c8040; 0x806480998144815881608169817c819583a084af886f88a488d2895c89dc8a3e8a468aaf8c7d8ca58ecf8f1c8f1e8f60; 0x8f8b8f8e907490e691489204929b94ad94e6961d97ac98af98d299d199f99a049a7d9ba39bd79c159c9e9cdb9d8a9da5; 0x9e5b9e61]);
  (1465021068478963400, [0x4e9e4f224f8f4ff050ec53ab53dc54dc5563557a5667568c56e3574c578658da598f59b159e05ad95b715c6c5d2f5d78; 0x5d9b5e3e5e465e4f5efe5f895fca603f60456072614261cc625c626462fb63f2653c67bc687e68fd6abf6d076e066e37; 0x6f696f7a703a72e8738175f3761676cc77ca77dd780a781f78f67902793d79747a027a477ac67ae37b297b817bbb7c03; 0x7c237cf87f4d7fc48182825f82fa8722872e878288c38b898cc58d458e7d8e7e8e9f8efa8f7a90b4916b9207948694b7; 0x95a497b69a2d9a4c9a6b9a959a989b8b9bf5]);
  (1473025339246317000, [0x4f234fd04fe25022502e519152335255530b533c543d563e5641566d56d45717577c579757d157dd584b589b58b758ba; 0x5b1b5c285c635d2a5d4f5ddc5edb608f60906128619a62e164af653d654765656603667167dd67f0687a68c768e86907; 0x69b169b869c569ee69f06a7c6abd6ad56ade6b826c676d366dc66f056f636fe970c07117712a7156718c71d472de7370; 0x74d574e975b376b776e6772d77347739774777cc7905797e7c387d287d5c7fe981258159817782d2831483a983d383d6; 0x845c8538868386a5880189a189cb8ac58bb48dfd8e258e3290d091249136918491ea927a927b9389939b94d294d5952b; 0x954897ae9b3e9b5a9bed9bfc9d229d639d6f9e3b9e4e9e799f39]);
  (1481726476945280200, [0x4eef5032506450f95193538054d356355722579657a458b858cd599859e15aaf5ac05adc5c435e0d5fe16018617862cf; 0x630b630c661d66d76778679e67a867b867f767fd687768b268ea68f469266a036a056a896a926b5c6bad6bb06c796c9a; 0x6cd26cd46d5b6e686eb76f0870007241728f72ab72dd72fa739d73b773cf73dc7425755e75dd7691769a771d77e7782c; 0x789479d57aeb7b107ca37cc57cd77e727fc08011804382fe83e584ab8515856485a487b387cb87fc880b88db89bb8a2c; 0x8a6e8d868e618ea18eb78f588fa78ff491ed920892129345941f94fb96e998469a449aa29aaf9aeb9b849c679ce29d61; 0x9d939e499e4b9ee7]);
  (1491257494925712600, [0x4e8a4ebb4f3e4fc75025503b50405049504d506f507c508050c650c850d3523f524b5277528c570b5712576957a9580a; 0x581a59c15a815b275bde5be35c2e5c995cbe5cfa5d555db45dbd5dd65e525ef25fde5fed600f602960ba60be60fd611e; 0x64d0656966cc66ef678f67a067b5689168dc69ef6ba96bfd6c6d6cc36cd66ce46cf16d086d196f7271cf727e72e2730a; 0x732273a273fd742b748676017612763277227735776e777a78327945799079ba79f17b727b987c547c8a7cb67e947f35; 0x7fbc7fee805b81038114812981e08204830c83e083f483fb851f853b861886b3870a8729873b873f87e6895e89ac89ca; 0x8b248c4a8e908eca8ef68ef98f758fcd90a19169917a91a092cf9397940e94d796679688968999d899f09a209a809a83; 0x9b189b5c9bba9bc19ca09db29e139e5f9eda]);
  (1501793546491495200, [0x4e264e554eb74ff55020506750ba51c85252528e5298546a5486549955455562561a564d567457d5586858cb58ce5aa0; 0x5add5b1d5bc35bfd5cf15d1c5d515d925da15e0e5eff5f455f825ff8604760b360b7634a6523655c6567661167d568a1; 0x69566a656ac16ac86aeb6b4d6d346e7c6f92703f711e71af71e0728b73a573cc73e6742875a075b475e07617764e765c; 0x7665778b77ae77ba7841785c788278bb796c798b79f479f97a387a447a7c7b0d7b1a7b607b8e7ba57c227d627ded7e42; 0x7e487e8a7ea97eda8022802980a680f58161822d8306840f8438845f852d85b385bd85db85e8862786ab870b87c18800; 0x883588ef8a078a4e8c498e338e878efe8f7c90b290c7912b926992c69329939a93f99520956a958f979797d79853989b; 0x98bb98d6994599929bf79c109c379ca69dba9e1c9e959eb49eb99f4d]);
  (1513571850057133600, [0x4ef54f094f474f764f7b4f81505150fc511951505160522d527b528b52bc533d536853c754e95503553255b157465748; 0x576b57c957f5595359c359ed5ae55c195c1f5c665c685ca75cf85d055d435d495d7f5df95ed15eda5fa260806099610c; 0x6131619f61ba62c3634363cc63f8657366c66718672e6759678667a767b267e067e368246a106a876a8e6aaa6ab56ab8; 0x6ad46ae66c8c6d286d426e846ec96ed86edf6ef96f686f7f703d705c7069706e70dd71037104714b7155716c72d3733a; 0x734c7353746e746f74aa74ac74bf750d75267610763c76a176a476bc76e9771a7745780b7815783c788f78fc79a579a9; 0x79ee7b587b917ba07bbc7c1b7d937de47e267e517ef9808480ed81ad81de832f8356835c8476849784fd853585e68653; 0x86ec8708877c877e87bb881188c8890c8919895b89aa8a338a5d8b498b5a8c748cba8cfb8d108d368d468d598d848e20; 0x8e498e988fe2905890859098912091299142914791f19230927292cc9319944d94e494e59531956595af95d296189654; 0x96ef9723973997469779977f97b89a4a9a859c5a9c699cbe9d929e029ede9edf9eee9f419f559f639f81]);
  (1526924989319585900, [0x4e174e744edc4f704fc9503d5046507250dc510751d751ee527a5296531c532c53b9541454ab54b954fb550e553c5572; 0x56b3576757a75800586f589558cc59d65a8b5ab55ace5ae75b905b945c085c0b5c885cbc5cd85cef5d195d505d675d75; 0x5dab5df05e2c5f245fec6031609260de60e2617e6197619d61b8624362a862e0631c633463ad63af63db642e6438644b; 0x6466661a668166b867d767e767fc681f68a3692f69f169fa6a5a6ab96abe6ada6bce6bde6bf36c596cd06e3c6e6f6e87; 0x6ee06ee26ef16efa6f0a6f836f8c70057034705270a97134717471797222726572b77315731a7358737773fa74467606; 0x764776a376aa77047775778077e1787878c378ed79757979797c799679b579d77a7b7abf7b4c7b7b7c0f7c537c647d77; 0x7db57df67e167e367e498016803080698075811e81c781fe820182138223823a826482b582d8839b83b083b683f88490; 0x84ca84e8859f870d8718878b879787bc87bf87d888c08a9c8b4e8c1e8c788c948e0c8e2c8e848e8a8e93900e90199081; 0x90d590e4912e92d092d592f1934793d193de94ac94f99534955b955d9564956895b495de961a9728976697c2980a987c; 0x990e995b997999989a1f9a669aa69b369b889bd29c099c1c9c539c619c839cc79cd29ce19d5a9e609f31]);
  (1542340057302311600, [0x4e624e654e9d4f0b4f164f1b4f254f7e4fa45023503950445054506b50b450e1513051575213525a525f5359547b5551; 0x55de568a56a85759577b57a05881593c596159a359b659eb5ab15ab95b485b565b5e5bc85bd15c025c365c6a5c8d5d0a; 0x5d8e5dce5ecc5f345faf60b161126174617961de6281629462b4638a63fe6407642864326464646c64dd653a65546560; 0x656d657b6580662c66bb66c266e76704671967216785681d685a68876888688968c568e56961697f698c69c069d969dc; 0x6aa96c156c696ca96cac6d236e726e7b6e886e986f376f786f89700d705d706a712e7143717c71fb7250726472ad72bc; 0x72f072f773197342734e7447752a758275d675df75f175f77602760f7648765576be76f1770d785a787e7904791e7969; 0x79827a457b217b697b747bef7c1d7c307c317c3d7c5b7c797cfa7d197d487deb7e207e3f7e537f957fd17fe3800a800b; 0x804481ff821682dc83fe847a84c184d084f0866986d28759878387a087bd87f0888888b4890e8a188cc18e1a8e508e9c; 0x8ea68f028fee904e9062908b911a9157919191e6921a92c1939493ec93ef943f94559527957195729574969e97b39832; 0x9865988b98a2991c99839ab29c2f9cc29e729f44]);
  (1560572212981707100, [0x4e4a4e784f404fc24fcd4fe4500550e551205126514a51535247525b5268542554b555045538555d55e2562f571e5775; 0x578d57d657f7580d583a584d5859587b589158a358b958c658f7596f59c25a025acf5adb5b6d5b6e5bef5c6b5ca45cc5; 0x5cdb5ceb5cf55d015d255d595d6a5d775d8a5d9c5d9d5db35dd45dfa5e495e755eb35ef15f165fb05fe6601760236048; 0x605c60676075608260ab60d360d660f2610561aa620b6229622c6275628e62d162f963336340636964606501654e65f2; 0x6667666c66ad670f6741677b679367f26872687868d668f768fc6900695c6962696a6a976abc6acb6ba66bbd6bc06c50; 0x6c546ebd6ed770a271077124713b71427146716071c171ed721c7240724f726d73017303730974cc74cd756f759975cd; 0x75ed76277643769576b376dd770a7711771c77497788778c77d37805787b78d978e1794379fc7a1b7a7d7a8b7a937ac8; 0x7b927bb77bda7bea7ccd7ce37d417d7a7d897dae7e227e447e9f7fe58090820982938311831b833a838b83c984598469; 0x847385268591859785be8617865b86c38740875f880388198852888688938918896889a689ce8b7e8c5f8ca18cbb8cd9; 0x8ce78d528d558e048e238e408e428e528e638e8f8ebb906891039137917291859195922a926092f992fd9381938894fd; 0x959f965e97789808982298579902998299d49a419a699a759a9c9b0f9b409b8a9b9a9c3a9c519c759c929cb99cba9cd8; 0x9cf29cfe9d179d219d919e249eb59ec99ecc9ee29ef99fa0]);
  (1582886568113128200, [0x22364e1f4e6d4e804e964ef14efe4f314f614f9a4fb34fe54ffd50155052506a508351245135517e5182519d51a351e6; 0x521c523c52c552cc534d537a5391539e53ac53b153ba53bc543f5463551e552a555555885595559a5655568256ee571a; 0x572b572c57795787578957b457b757ba5878588e58a558ac58b558f858fc5a005a4d5a895abc5aee5b0e5b1a5b3e5bad; 0x5bb15bb75bfe5c955cc65cd75cda5cdd5cf95d135d4d5d565d5f5d665d765d905d935d945dd95df55e565ed55f095f63; 0x5f655f9c5fba5fc45fc85fd15fea602c604e605b608860916098609b609d60b960c360c460dd613e6141617a618d61c5; 0x61dd623d627a62ba6338635263a463de642f6439643e64456453649664d465046528654165c965fc6610662366836686; 0x66a966fa66fb67026712672367386758677967bb67c16871688f68a468f3691a692969506952698069a46a1a6a2b6a4f; 0x6a516a5c6a6a6ac06af66b096b146b3b6b406b426b776baa6bac6bcc6bea6c0d6ca86cb56d056d2b6dc96ddb6e226e2c; 0x6e2e6e666f116f346f466f4f6f716f8a70207058705a7060708870fc710b710c7111714071a5725e7346735d73617366; 0x739973ce73d373d87418743a7469748a74a574b574c974d07512756d757675b875e47619761a761e763376417654765d; 0x76b9771477447765786078a178d678dd791379327954798a798c79ed7a1c7a497b2d7b5a7b7c7ba67bbe7bd47bf37c00; 0x7cc87ce87d057d237d927e5c7e7c7fc87fdb80318035810b810e812c8157818c819282f0834f839c83a3844084478489; 0x84b784be85398562861e870e87b287d18820884e8855886088be88e1891b892d8938894089a989b78a118b218c408c4c; 0x8c878dfc8e4a8e948ece8ffa91059121917b918e92339236924f9299932c939393dd945094b694de9558959a9620963c; 0x966f96ad96d996df96fb97249729974a97c898079854985e987899bf9a0f9a159a309a909aa39ad99b109b309b939bfe; 0x9c0f9c369c659c7d9c8a9cf79d349d699e509e629ea39ee99ef7]);
  (1611654775358306300, [0x4e2c4e754ebd4ef34f3b4f6e4f9c4fb24fb74fb84fb95034504a5059506e509150ad50bd50c450cc50dd50e250f350fd; 0x51025121512351835187519051ab51d251de5221527952e053025350539753b25405541c545f547e548d54b754be5519; 0x5522552b5536553d554f5559559355a455e9562656475649567f570c5727574b57655794579857cf57d057f8580e5897; 0x58b658bb58dc59ac59b459ba5a165ac55ade5b6b5bce5c215c335c445c475c585c5f5c675cb65cba5cc25cd65cdc5ce9; 0x5cfc5d185d535d685d795d7b5d7d5d805d9f5e1e5e215e325e335e4a5e855ec45ed75ef85f0e5f145f6f5f7d5fc15fee; 0x5ff25ffc601e601f6022603260336054606060656074608160aa60bf60ce60d060d96122613b613d61476158616561b0; 0x61d361df622462856286628762be62de632c6337638e63f3640b64236433643c6497649a64e3654265db65f365f96638; 0x66476648665b667966ac66bf66cd66d366e8673b67476754676267b467cc67cd67ee680468186830684e685f6879688a; 0x68aa68bc68c468ca68d168db68e168f869146919691b691c691e6938694669696970697d6985699169bc69da69f469f6; 0x6a076a0f6a416a466a546a5e6a6b6a736a986a9f6aae6ad06ad66b0a6b0b6b386b436b606b696b6d6b706b946ba06ba8; 0x6bbb6bd86bf96c026c1c6c3f6c486c4b6c736c916c986cc76cdd6ce96cf46d096d0e6d186d2f6d656d706dcf6dfe6e1f; 0x6e516e6c6eb16f2e6f386fa37023702d7054705b706570d670d770f17127715f716f717b719671a071bd71dd720c7258; 0x728472a872d472e472f473217355738073867388739f73e173f473f97421742374327454745d7471748e74d474da74ed; 0x75077521757775ac75ad75b675fc7605762976407649764a76597661766776a976e776e876ec771b7756775a775c778d; 0x77a177a277d877df782a782e784b7854787f7970797379ae79cf7a0a7a127a1e7a8e7ab57b277b487b4e7bcc7bdd7c16; 0x7c197c557c727cb57cbb7ccc7d007d327d347d437d4b7d4d7d667d677dd07ddc7de67dea7e0c7e347e507f9b80238062; 0x809e80b8810c8166818581cc81ee82ba82ed82fd8307833c84238429844e8456846b8474849f84bb84cf858885a2861d; 0x862087098748876487a287b587c887d587da87dc87f287f7881488348846889d88e98913894c897289a489b089b28a04; 0x8a178a458ab98b038b5f8bac8c2b8c478c5d8d0f8d6c8d7b8d948dc28e1f8e678e968ec28ee08ef28f498f718fc68fcb; 0x91559156917e918d919c91c3927792be92d892da9349938c938e940494149561957595ba95dc95e4961b96d896e196fc; 0x9711972a972b979397e598189835984a98ad98ca98d099ee9a119a429a4d9a969afd9b639b8c9bbb9bc89c1b9c3e9c64; 0x9c7a9ca19caa9d0f9d109d509da19dc89dcb9ded9def9e409e569ef59f349f5b9f78]);
  (1652201286169122700, [0x4e024e064e124e404e794e7b4e974ecc4f284f374f394f564f8c4f934fa14fd34fd54fec4ffb50005001500850305031; 0x50355058505e506d5071507450845087509050a250a450aa50b550c550c750d850fa510d512251275138519e51a151d4; 0x51d851e8522c5244525e526e5274528252a652b552b852dd5334534c5369539053c5545154605485548754a554b654bc; 0x54c354d654da55165542554e5571559b55c25637563c5651567256755696569756b156cf56d756dd56eb56f556f95707; 0x570a5713571857255752575457555758576e57805791579e57bc57e457ea57ec57f157f457fc5805580c581058285834; 0x583c585358765877588f589a58c058d65901592c5936593e594c5985598e59ef59fa5a195a2d5a3d5a4c5a525a705a7b; 0x5a9c5aa65aad5ab65abd5af05af85afc5b0b5b205b225b435b465b4a5b9f5ba95be05bf15c075c0e5c1b5c235c295c2d; 0x5c355c5d5c855cb45ccd5cce5cdf5cf65d285d2c5d395d455d575d5c5d7e5d965d9e5db25ddb5e175e205e285e2f5e4e; 0x5e515e895ebc5ecb5ed95edd5ee35eec5eed5efd5f0c5f0d5f285f2a5f335f755f935f9d5fa95fc75fe35ff65ff75ff9; 0x600a602d6036603960446049605e606660ae60b560cf60ea60f86103610761166119611d6132614061456146615c616b; 0x617161a661bb61eb61ed61f16209625e6265628362dd62f262f5630f632e63686386639b63e063ef640a641564596472; 0x64ca64fb65206526652d653465406543655a656865a065e16608661b663f6645666a667b667f668b66b566c166ce66e4; 0x66eb66ee671a6732674b676b676e6774679667a667ba67bf67c067cb67d267f8681268146815681b683368346836683f; 0x6844686f6870687c687d688e6899689c689d68a068ab68cf68f26904690a69166917691d692169256927692b693a6947; 0x694f695f696c6971699769a369ac69b369de69e569e969f769f96a046a116a6e6a7e6a856a9d6aa26ac56af96b066b58; 0x6b736b9d6ba46bdd6be46c076c0c6c3c6c4e6c786c7f6c8b6c9c6c9e6cb06ccb6cd16cde6cec6d026d0d6d216d246d2d; 0x6d6c6dbd6dd26e1e6e336e396e486e506e606e626e656e786e8e6ed96ef26f246f2d6f366f3c6f4b6f606f736f8f6f96; 0x6f9b6fa56fb46fd86ff8701870327042704d704e705f7081712b71387139714f7165717e718b7192719a71a771b171ea; 0x71fa7207720a7227723c7266726e728e729b72d272ef7304735a735c736a7397739a739e73aa73c973e77417744d7451; 0x7452747a74c474db74ea74eb7503754a7580758e75d075da75ec763576517657766876767679767f768176bd76e376ea; 0x76eb76fb771377257771778677a677b577b677c177d177f477fb77fc7835785e7867789e78b978f278f97919791d7934; 0x794b79527963796a7a0c7a277a407a4b7a5c7a6d7aa27abb7ac37ad87add7af87afc7b1c7b467b4a7b737b877bb27bc2; 0x7be57bf27bf47c1a7c467c477c947cf57d017d0d7d177d4f7d557d697d6a7d6f7d767d837db17e707e787ee47f0a7f32; 0x7f337f3c7f497f5d7f637f8b7f937fa97fb17fb37fc37fc98020804d807980e080fc80fe812781428186819981b481e1; 0x8232824d82a382d682e28308831d83488359836c8399839d83a783b483c283cb83cd83fc843584788479848d849684a2; 0x84a884a984ad84c284ce84e385288552857785a585ab85b885e58606860d862886408660869686a286ea871b87238734; 0x873a873e876387718774879887b18866888a88aa88b288da88dd88ff89008907896c89db89dd89ec8a098a2b8a698b12; 0x8b268b298b548b698b6d8c398c3b8c6c8c858c928cdb8d0c8d658d7e8db78de98e418e458e4f8e5f8e6b8e6f8e718e85; 0x8e8d8eb18f428f518f628f648f738f798fac8fe08ffb902390279082908690de9134913c9174918891ab91c891da91ff; 0x921b92249234924b92679283928a92bf92ec930f9332933b93719392939e93f19420944c94c7954b955495899598959c; 0x95a695e096139628963d96419674969396f197059708973f9781978f979e97a697a797fd982d9843986098a398e398e4; 0x9904992c993d9964997899c399c999e499ec9a029a039a0a9a229a729a8d9ac39add9aec9aee9af39b259b2c9b9d9ba8; 0x9bfa9c579c609c639c999cb09ccb9ce39cf49d2a9d2d9d379d4f9da49dc39dc99dd69ddf9e0a9e4d9e659e859e919e96; 0x9f329f389f499f4c9f619f679f8e]);
  (1721516004225117000, [0x4e204e684e774e7c4e7d4e7f4e904ed24eda4ee64ee94eeb4f024f074f1c4f2d4f414f424f454f484f4a4f4b4f524f67; 0x4f6b4f6d4f904fab4fb04fb14fbb4fbe4fc84fd64feb4fff50035007500a5024502b503650375070507a5081508c509f; 0x50af50b150b750b950bf50c350cd50ce50d250d450d950df50e050e350e450ef50f150f450fe50ff5105512c513d513e; 0x514e515d515e5166516f5172517a517f518a5196519a519f51b151b451c351ca51ce51d351d551e551ec51f7520b520c; 0x521f5227522f5232523552485271528352865287528952b052b452bd52c252c452cd52d352e652f152f752fc53045333; 0x5340536d537253aa53b353c4543054335444548154885491549754a254ae54b054cb54e254e454ec54ef5502550a5513; 0x5517551b551d5521552d55475548554d555f556055695596559e55aa55b655bf55c155ca55ff560d5611561c56205622; 0x564f565a566e5681568456865689568b569856a156a256a456a556c256cc56cd56d256ef56f356fc5704570f571d5734; 0x57355738573d575c57725788578c57bb57bf57ca57da57e657e857eb57f3580158085814581658175826582e58325838; 0x5847585d586358655866586d5879587a587c5886589858a258ab58af58c958cf58d758e258fa58fb5900590559175920; 0x59405952595b5966597a597b5981598c59bc59f05a0b5a265a305a355a3a5a3b5a485a505a545a5c5a5f5a695a6c5a6e; 0x5a785a855a8f5a915a945a995a9f5abb5aec5af95afd5b055b525b605b615b6f5b7c5b865b8d5b965ba75baf5bb25bbc; 0x5bc95bca5bdb5be65bea5bf55c005c1c5c2b5c535c565c5b5c6e5c725c745c765c865c895c965ca65caf5cb25cb95cbb; 0x5cbf5cc35cc85cca5ccf5cd05cd15cd45cd55ce75cee5cfd5cff5d235d355d3b5d3f5d5a5d635d705d715d735d7c5d87; 0x5d8b5d8d5d985d9a5da85dac5db05dc45dcb5dcf5dd15dd35dd75dd85de35de45e295e315e355e3c5e485e4b5e505e57; 0x5e5c5e635e655e6a5e6c5e6f5e8c5eb25ec05ed85edc5ede5ee45ee65f195f325f465f8f5f965f9f5fa45fab5fb45fb6; 0x5fc25fdc5fe85fef600760096013601a60306038603e604f60516056605760616077607e609e60a260a460cd60d760f1; 0x60fc60fe6102610a6110611761256139613a6144614d6152615761646166616e616f617b617c617d6180618361846186; 0x61876188618a61b561bd61d561d661e261ee6232623562396242628c629c62a962aa62ae62d56300630d631563186335; 0x633e6344634863516358636c636d6372637563d863da63e663eb63f0640d641664226435643b64426443644c6455645b; 0x646f6470647c649964a664d664d764ec64f16505651a6529657f65a265e365ea65fd65ff66046605660d661c6624662e; 0x66376639663b6644664a664e66506651665c66786688669366956699669c66aa66b066b666bd66c366c566cb66cf66d1; 0x66d466e366e566f166f5670567066707670c671e6730673367366739673f674d6755675d67646766677a678a679b67a4; 0x67b167bd67c367c867d667e167f567f668016802680368106819682e684a686b686d687b687f688068846892689b68a5; 0x68ac68b968c868fe690969116915691869206928692a692e693569376949694c694e69556964696d69746975697a699a; 0x699f69a569a669a969aa69af69b669b969c269c769d669e169e369e76a146a156a1d6a206a286a326a426a4b6a4c6a56; 0x6a576a686a696a7f6a816a8d6a916a936a956a996aa76adb6ae36af06afa6afb6b016b026b036b076b256b2d6b356b45; 0x6b536b5a6b756b8d6b9c6bbe6bc76bd16be26be76bf16c0a6c376c3a6c4d6c4f6c626c6b6c6c6c6e6c6f6c846c866c87; 0x6c8d6c956ca06cb26cb76cc66cd96cf96d156d1a6d376d4c6d556d716dac6db46db66dc26ddc6df56dff6e026e156e1b; 0x6e466e4b6e4c6e716e7a6e916e926e9a6e9d6eb86ebb6eea6eec6eee6ef66f0d6f186f406f506f7d6f7e6f856f906f94; 0x6fa66fb16fe67001700c7019702b702e7031703870457048704b705170557063706c7074707a707d709170a570bf70ce; 0x70d270d470da70e370e570f57105710e711271227148715071517157715d7163716b7177718671917193719b719d71a9; 0x71aa71ae71b071bf71cd71d071d271da71df71f971fd71ff72087213721a721d721f72217229722f7243724b7263726a; 0x727672827289729a729e72a472a672b872c372e772f3730c730d73127318731e7323732473307335733973437345735b; 0x735f7364736e737c737f738373907393739c73a873ad73b173fc740b7412741574197427742d7439743b744974607462; 0x7468746c7472747d74847489749274977499749a74b774c774c874de74f074f174f8750b752475277534753d7563757a; 0x759275a275a775b075c075c375d175d775fe760c7623764f7652765876807690769c76ab76b276b676b876c376de76fd; 0x76ff770577177719771e772b7731773e774e775577577760777c779477a377b777c477c577ce77d577f0781b7822782f; 0x784278467849784a7874787578797880788378a278a578a678ad78b578b678ba78bd78c878da78ee78f578fb7911791c; 0x7930793579557972797679877991799f79ad79c779d079d379e879ec79f37a017a057a077a097a0f7a107a157a197a2e; 0x7a487a4a7a607a6b7a6e7a857a8a7aaa7ab07abc7ada7adc7ae27aee7b307b617b657b6c7b8a7b8c7bbf7bcd7bcf7be0; 0x7be87bf67bfa7c057c067c097c127c367c4e7c517c597c637c657c677c6b7c6d7c757c787c8b7c9a7cdd7cf07cf17cf4; 0x7d167d187d1d7d427d467d5d7d707d7b7d8c7d907d9a7daa7daf7db77dbc7dc57dc77de77dfa7e017e057e1b7e1d7e21; 0x7e257e4f7e737e8d7e967e977eb47f107f377f477f667f6c7fa27fd37fd97ffd800e801480248025803c80718085808f; 0x8095809780d280e68122812d8137814f816a816c8178817d8183818781a381a981b981bd820e82178220824e8250825d; 0x82718274827b8294829a82bc82f2830b831f83428344834583578358835b836283788382839583a183c683da83de843a; 0x84458454846f847e848784888498849a84a184a684dc84de84e084e284e5850c850e8518851e852f853285458546854b; 0x854c855885618569857b8580858b85908596859885b68615861b863a8656865f86618675868f8692869e86c186c88705; 0x871e8728874287438753875a875c8765876a876f87728777877b8780879387b087cf87de87e587ec882588268828883f; 0x88428849884a884b885d887a889b88bf8906890889148916892789358941894f89518954897389748987898f89a589cd; 0x89d689e289f889fd89ff8a088a0f8a278a368a548a678a838a8c8a9b8a9e8aa48ab58ac08ac68add8ae08ae58ae78af4; 0x8af88af98b0b8b0c8b118b1f8b338b3c8b468b6b8b6f8b778b788b8c8b968bbb8bd08c358c3a8c3c8c448c4f8c548c56; 0x8c638c708c908c938ca08ca88ca98cb08cc08cd08cd38cde8ceb8cf48d0a8d338d828d918d9a8d9c8dab8daf8dc78dd4; 0x8dd88dfe8e188e218e3a8e3c8e3d8e4d8e4e8e5c8e628e708e7a8e918e958e9d8eaa8ead8ef18ef88f078f088f0a8f1b; 0x8f4d8f508f598f5a8f7e8f808f818fb58fbf8fc98ff590349045905d9084908a90b790cb90d790df90f090f290f99113; 0x911b91289133914191549181918691a891b291bd91c691dd91e491ec920e9238923d924492539255925692759285928d; 0x9292929c92a792aa92b392b492b992d292e192e392ee92f69302930d9360936e937c938d9396939893a393ab93cf93e6; 0x93fb9408941b94439452945b945e9466946a94b89533953d958d959b95aa95cb95d895da9622963a965c9681969196a0; 0x96a296a496a596a996bb96da96dc96dd96ec96f896ff973197489751976897709777978497a197a297ba97c597d197d3; 0x97fb980f9833984b98519856985a985b985f988398a998c798c898e1990599169917991a992a993a9941994d995f997e; 0x998c999b99a999b099c099c299cc99df99fc9a089a0d9a149a239a279a289a2b9a359a389a929ab39ab99ace9adc9b05; 0x9b0c9b1b9b1d9b249b729b809b869bb09bc59bd59be09be29be39beb9bf39c129c149c219c289c3d9c469c689c989cc6; 0x9ce09cec9cfd9d159d1e9d4e9d549d589d599d5b9d5f9d769d7c9d969da09deb9df79e079e099e0f9e6f9e849eaf9ec0; 0x9ec89ed29ed39f089f1a9f339f409f689f6a9f6b9f6e9f709f739f779f829f8f])
].
