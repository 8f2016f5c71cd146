(** Data of package pos, generated by tools/pos_tab.py. *)
From Verif Require Import Base.
Local Open Scope Z_scope.

(** char_state_tab.go:61-6710 charStateTab: the states of a character; the hexadecimal digits, in threes, are the decimal
    digits of the states. *)
Definition char_hex : list (Z * Z) := [
  (0x4e00, 0x122422107100322125145238222307142138115256204315104143117120320106306327124243152325332200225252343207156112304227220130317224338127215331132228352229217330129131328329232135335324);
  (0x4e01, 0x127427227225330325125327332229232207133122454331130215252322315426230329128320333132115152220143129104228);
  (0x4e03, 0x122322422222143125130115315327132230227332330104325120243331225131117127320232324317);
  (0x4e07, 0x122422222322125132127315104130143115107327227320215229120325124332129330135324100131117128329152220230328);
  (0x4e08, 0x125222435225325215152227422315320132327229115220);
  (0x4e09, 0x122422322124222125327130117132104330243143325115315332129120320207343238227225138317215127131331152232228217156142324220328307224352304);
  (0x4e0a, 0x412152242130212252143125225207112104117243220131352315325320120230215127142327156132122129306100312204304330115227162343262322331229317124300329332324);
  (0x4e0b, 0x412152252212225222242125143112325207322243320220215200204104120306352238315256130317156100307230330422327312343227115229304331135232129132356224324107332231);
  (0x4e0d, 0x407152107100125106315320352122207115120108307220162325306143300330130104343142132156327206129332322217362101304329127317);
  (0x4e0e, 0x434252106325115152145120315327125331107320332227130215);
  (0x4e10, 0x225413327227125);
  (0x4e11, 0x400125100225222252227320152315322115327243143120332215203217417343200);
  (0x4e13, 0x125107407152156104100120320217101225317115132227327117331325204315304220231);
  (0x4e14, 0x206406106207120130315252320227);
  (0x4e15, 0x413227327228);
  (0x4e16, 0x125426327252225332325229227343143120142315127131156243215117132320220217104230204324331115152207322122328352222232100256330329);
  (0x4e18, 0x125225127230427227325435327330426229130315331332232129215132142329);
  (0x4e19, 0x125325423332327122227132228315232);
  (0x4e1a, 0x225325125252331256426217356112220232204227320352104107215332231425327315117330238229304120230343407132115228);
  (0x4e1b, 0x225125427127112152227435325426320327322222135235315142130115362262);
  (0x4e1c, 0x125230112130412225142227127330143327117132212331104131325152115229332242315320232312120129231228156329252128220118328317);
  (0x4e1d, 0x225125425222122435325315252227120104327132362232224324229129320162262230220115332256422322330215135204329);
  (0x4e1e, 0x125325327225228);
  (0x4e22, 0x452152100120115127);
  (0x4e24, 0x122422125112222322138117104130315225325120115320162317143215152327132331156332220227352129);
  (0x4e25, 0x100101400127152200125225103207130327115227162362252215143332220107120315128325330117232153320156);
  (0x4e27, 0x152454125200252315115256426320100104325120117332);
  (0x4e2a, 0x222238435422125204322100207135235325307343243338117152320120138225130122317156352332327345);
  (0x4e2b, 0x125327425325225426227352330);
  (0x4e2d, 0x412130125238242131117112252132104212143152230331327225320207330325227317129229315100217243304120220107342156127232228200332215115142312231356204256352328343318);
  (0x4e30, 0x100230402232127132227152125115130331427327330252229315120131156320220332129325228352215200329);
  (0x4e32, 0x452225222152125252156104320256130115325227117232120435315);
  (0x4e34, 0x252104152452130230156227125315327331129115332107325320132131120330117228232220);
  (0x4e38, 0x225426435125227232327315325132);
  (0x4e39, 0x230130227127427225125327417330332325252426132129315131229115331232320215120);
  (0x4e3a, 0x434252206152207134138225315227320145327120215125115106230129220228325238232100300331330256);
  (0x4e3b, 0x125104325252225425152200101156332215331227320330327120352117220129304356315230229253);
  (0x4e3d, 0x200327227427130127262230315229329125330131225325129402215132332454252328320228100);
  (0x4e3e, 0x152452252125207115238225315325227215120320220327107156332352331256228);
  (0x4e43, 0x452106152327227325252125130330320315127);
  (0x4e45, 0x400222200238152207107343204325243227315320327115215162322120220143252352201100129127132230225130330);
  (0x4e47, 0x435227);
  (0x4e48, 0x238338460427207220252206320227127327);
  (0x4e49, 0x225125252426227325327427220232204230215330120256315130115200132332331100152431320229131352129228356156329127);
  (0x4e4b, 0x445112138315320327206227106207352130215325322306125252324220234225228332342243127222115334330);
  (0x4e4c, 0x130125127417129162327132115227330230315225329232131362262325229215117152320231);
  (0x4e4d, 0x407452130315120227);
  (0x4e4e, 0x207252460262362315320434215200220227206327256);
  (0x4e4f, 0x252100200452325215120203315152332400454);
  (0x4e50, 0x225125100325400200127256227230252152331130315332327330320215232243115229452162129132220120352204362262343231228317);
  (0x4e52, 0x125417117333133331227217);
  (0x4e53, 0x325433217333233331);
  (0x4e54, 0x127227125427327129130115332229329426152117128132330131104);
  (0x4e56, 0x400125100225207107252162227327315);
  (0x4e58, 0x452125152107232252227134225115315120132262327215325224220156200104256320330);
  (0x4e59, 0x125425325332227327132120122225422104423128317328232);
  (0x4e5c, 0x427152127227327);
  (0x4e5d, 0x122322422327130222143125132227117315127243115332131225220142325104320324330331217120232335343204129328);
  (0x4e5e, 0x152125252130315225156);
  (0x4e5f, 0x407107207160120330130215327320227331228315131220);
  (0x4e60, 0x252125325452256225152127115227327162262454128343332130315215426427);
  (0x4e61, 0x425225125252230142330222325215238227220315327232120332320229104422256322129328331130329);
  (0x4e66, 0x225425125325252238327227331152256104232142332315107220130115215127117320228132230328330120);
  (0x4e69, 0x459252);
  (0x4e70, 0x452152252125325330230156315320327127256120329129220115104331332);
  (0x4e71, 0x407200252225152125315215207162115256320220120352232325130201362227217203332100);
  (0x4e73, 0x125426325225252232152454130104320227132315115256332);
  (0x4e7e, 0x417127143327227125426132117130315230228);
  (0x4e86, 0x449234152252220260100315245320207243115225215120352327127204125227228325256);
  (0x4e88, 0x252152454452227327256315320115325228);
  (0x4e89, 0x225256152232452156325125252220227115327107320215315100120162330352131217);
  (0x4e8b, 0x125425225252325120238204215315107143320331332200152220115256207352327232227217330231317104356);
  (0x4e8c, 0x122422322222125129104332243327130143138325106238227117225320343315215132120331127115152204307124217330317220324131228232230);
  (0x4e8d, 0x459225);
  (0x4e8e, 0x252434234206207106127315320225327128130220227107255325229120115129328);
  (0x4e8f, 0x156452252152207125225320107220315100215);
  (0x4e91, 0x425130227225125327127230330315152252132325131117215262232220320120332229115129328142228331145245);
  (0x4e92, 0x207107152125407320252120325115156317331104130315227132);
  (0x4e93, 0x427127327);
  (0x4e94, 0x122322422125225222143243117130132115315104129327227124343120127325320330220332317156331228232131217215);
  (0x4e95, 0x225425125127130230152325227142327252315115229332232330215129320132331162120);
  (0x4e98, 0x252125115330);
  (0x4e9a, 0x230130417125227327330127232229129331325117332131132352329225217317328228);
  (0x4e9b, 0x238222435207322343122100107227422104);
  (0x4e9f, 0x152407107120227);
  (0x4ea1, 0x252454152256452325215225125220115332315320120);
  (0x4ea2, 0x427100200152225127215115315227252327125);
  (0x4ea4, 0x125152252325452156317331225117204120315256131352332215115320130227220143132104330327129217107100);
  (0x4ea5, 0x332330222322320143315);
  (0x4ea6, 0x407152227327315127320115138207130);
  (0x4ea7, 0x125225256325152252217452117320331204156220120317332304215143227356352132327104343118330232);
  (0x4ea8, 0x129427227327225330127315152130229);
  (0x4ea9, 0x222435422235238225156117125152);
  (0x4eab, 0x152252452125120454227327315156130325215320);
  (0x4eac, 0x230417331130330125132252325227232327117332225131229228129217328315317);
  (0x4ead, 0x426227125225327230232330229115315325130);
  (0x4eae, 0x452200227252225125152262100327162362228120220325315132204330332215320);
  (0x4eb2, 0x225125107452100152252327104227325120215315256320204115162362220200343232156);
  (0x4eb3, 0x459130227);
  (0x4eb5, 0x152252100);
  (0x4eba, 0x425225125238325229315252227330200331320120204117115215131132107256220232327104332322228317130152240135352217122156300121343329304);
  (0x4ebf, 0x122422322222320132327227104224125);
  (0x4ec0, 0x138338320352330230229125329227325225130332129327232);
  (0x4ec1, 0x227327426127225125130215252100315232330115230332331129325200229320329120402132);
  (0x4ec3, 0x459330215200228227);
  (0x4ec4, 0x225262125);
  (0x4ec5, 0x407206207107152307320120315115227327);
  (0x4ec6, 0x125426227225327315215332152330115);
  (0x4ec7, 0x125252425127225315152215325220227256327156115427128);
  (0x4ec9, 0x427327);
  (0x4eca, 0x143444243207320225127125315227220115327215252325129217228);
  (0x4ecb, 0x152327225125252325427227127217426320130315317117454332128256100);
  (0x4ecd, 0x407107252227327);
  (0x4ece, 0x434107106152252234127143225120104100115327207215315125320130156325227162362352256);
  (0x4ed1, 0x330225230227235413325327232229);
  (0x4ed3, 0x125427252426227325225101230127327100117156152162215330232130132229320115104129);
  (0x4ed4, 0x101426227404225325332362162327330125230129);
  (0x4ed5, 0x425125225227327252215);
  (0x4ed6, 0x438138238125120338340325230156225330252320142220327115332315132152331);
  (0x4ed7, 0x425252225100115452325227152220215315331320);
  (0x4ed8, 0x252256152452225127325120125320115327227224315156356204);
  (0x4ed9, 0x426125225227327130325330132252315332215152232120320230115131328220129);
  (0x4edd, 0x227327427127);
  (0x4ede, 0x435220227327230);
  (0x4edf, 0x422322122227);
  (0x4ee1, 0x132);
  (0x4ee3, 0x243225125152252435222325356156332227127315327331320422215204217220212330120224352324229322317256329115129130132231232107117128304328);
  (0x4ee4, 0x225452129325252120227125327206320115315230215127220235330304229331128232);
  (0x4ee5, 0x434112252106206207152107320315143327130115120125132134131117325215127232227328225);
  (0x4ee8, 0x422122225222);
  (0x4eea, 0x125225227426232327419127130325132117252120115315331320215229156228330);
  (0x4eeb, 0x132330);
  (0x4eec, 0x238419225325330320230240332227);
  (0x4ef0, 0x225452252152107120127227130315125256325115327320156220);
  (0x4ef2, 0x327152227127427156225125143130332315117331129328);
  (0x4ef3, 0x459);
  (0x4ef5, 0x125427127459);
  (0x4ef6, 0x225222224435422220325320207232217125252327227332315);
  (0x4ef7, 0x125225252425320256325200315232120215115227220207100204331327332304217);
  (0x4efb, 0x452225252138125152127325220107204222227128104100115315327215422156331320130120228256);
  (0x4efd, 0x225222125435232325224204422320243231331235238132200324352252315330);
  (0x4eff, 0x107152252452125225104156325327132227328425);
  (0x4f01, 0x125426317152217325225417320327227332117331304315104156256);
  (0x4f09, 0x125427227);
  (0x4f0a, 0x130132127417129327227330229329125152332225331230131232117320222315);
  (0x4f0d, 0x225127252422227325327122427322129330329130222125230128220);
  (0x4f0e, 0x426125225227315);
  (0x4f0f, 0x252452127130152217125215227343327222135220243315143320235132352435325225256100224131330156456120322);
  (0x4f10, 0x225452252330217325332227327152315215125256156456220);
  (0x4f11, 0x152452252156125227256220325215130115327352132225320129343230143330217232131317);
  (0x4f17, 0x225426125122115252315215320332325227207231327200331317352204220217132330120256117322356232425);
  (0x4f18, 0x125100152156104162402352204120325252207227115320217215225327129315132228317220256);
  (0x4f19, 0x225125325252435238222224338152210227330327220352104256);
  (0x4f1a, 0x452225252125325231217152322227320232143338331220222238332224135156356327130117330315215307230129100142132256120107352);
  (0x4f1b, 0x152452);
  (0x4f1e, 0x425125225252320227104152325232327);
  (0x4f1f, 0x227100200327427125132320228328220315);
  (0x4f20, 0x125152452156256252325327225227220232215100204320331120115315132304104332229117228143);
  (0x4f22, 0x125);
  (0x4f24, 0x252452125152225100156200325256203215115315120220142227332317327103320);
  (0x4f25, 0x215125);
  (0x4f26, 0x130330227327125230427127331315229131225129426262332329232215252325120220152228135);
  (0x4f27, 0x252459228);
  (0x4f2a, 0x125417152256200225252217130320117317227104325315327);
  (0x4f2b, 0x152454227);
  (0x4f2f, 0x327127230227330125225427325332130426329129232331229328228131115132);
  (0x4f30, 0x125152256252452325320327225229156227);
  (0x4f34, 0x152225452252125325227156327232);
  (0x4f36, 0x100315225130115330362262327320332);
  (0x4f38, 0x152252452227115125327104156215325225320228100132315);
  (0x4f3a, 0x152107156252132);
  (0x4f3c, 0x107252145200407454315325115120327227320352);
  (0x4f3d, 0x127225129125130332325);
  (0x4f43, 0x125452252325227327225);
  (0x4f46, 0x406106206127152107129330125115120);
  (0x4f4d, 0x225222152435125252241238422256325204320224127220227331120315215115317327207332130236232217);
  (0x4f4e, 0x400252152125200100225107325104142317204214115362342103117132120162215101320304262217220315);
  (0x4f4f, 0x452252125152207325200215352256220320315227132217317131304117156327331);
  (0x4f50, 0x454252227327125129152130225156330127229329131228232);
  (0x4f51, 0x252232228152256);
  (0x4f53, 0x225125200152425426142325356207320204252327227156220127217306100307232315331231215352304117330120115332162362256132143317);
  (0x4f55, 0x238138438107127106225220338152215125320252325227315115207327100128330120129228130332132);
  (0x4f57, 0x227413228332);
  (0x4f58, 0x127427130);
  (0x4f59, 0x122422238322320222125127225252325200204130256152315215128227230138327220330129332243331120115156);
  (0x4f5a, 0x454252125227225215327);
  (0x4f5b, 0x132125425207130225252227331325327330332230229129215320232131315115329);
  (0x4f5c, 0x256125152252452225325320315327230220215331115352117330227156200217132328332131204356104304);
  (0x4f5d, 0x125152);
  (0x4f5e, 0x225125200);
  (0x4f5f, 0x127427227);
  (0x4f60, 0x438138120115204320227327125304220325);
  (0x4f63, 0x125252426320325256225327);
  (0x4f64, 0x132417330229);
  (0x4f65, 0x413227325125);
  (0x4f69, 0x152327127252452227129125331330225130220329229132);
  (0x4f6c, 0x426232332225220330227325);
  (0x4f6f, 0x152252);
  (0x4f70, 0x327227422322122222332);
  (0x4f73, 0x262400125227327200217130252132315232131143325320229331115328);
  (0x4f76, 0x227413115327);
  (0x4f7b, 0x200413);
  (0x4f7c, 0x125325);
  (0x4f7e, 0x413);
  (0x4f7f, 0x452152252206225125227120325200315215327331320107232352204);
  (0x4f83, 0x252452227115315207327107120152328);
  (0x4f84, 0x125225325);
  (0x4f88, 0x325200454215152320100227);
  (0x4f89, 0x125);
  (0x4f8b, 0x225152425125422207222252320325156215115224304220256227);
  (0x4f8d, 0x125427127152252225327454325);
  (0x4f8f, 0x143125127104);
  (0x4f91, 0x413227327);
  (0x4f94, 0x227413);
  (0x4f97, 0x417132227330327125);
  (0x4f9b, 0x252156452125152120115320325225215117131317227204331);
  (0x4f9d, 0x107152452125227162327134252127315120115262232330332130230220156132256329320331215225100129);
  (0x4fa0, 0x227225427125325100426332327115320);
  (0x4fa3, 0x225332125325);
  (0x4fa5, 0x100101);
  (0x4fa6, 0x152125454217156120332227252325132327);
  (0x4fa7, 0x212452112125152225107215156242132252327315115435325);
  (0x4fa8, 0x225125426152325417331132227217117427330327);
  (0x4fa9, 0x225413325);
  (0x4faa, 0x225125413238327);
  (0x4fac, 0x413227229);
  (0x4fae, 0x152252454225125132256);
  (0x4faf, 0x127227225427327325426125130129230330215128120220);
  (0x4fb5, 0x152252454156125325227320132130332);
  (0x4fbf, 0x407152200100206207201252225125227122104320325362262156160220352315215330327115143322130232120);
  (0x4fc3, 0x152252452200156125331201315100225132115317227120217);
  (0x4fc4, 0x130417330230125117131132217107104331327325229);
  (0x4fc5, 0x459227327);
  (0x4fca, 0x327227427400100200315125127225132162328115129);
  (0x4fce, 0x427315225215327);
  (0x4fcf, 0x400200452100125215227252152325327162);
  (0x4fd0, 0x200227215459315327220);
  (0x4fd1, 0x426225325227125330);
  (0x4fd7, 0x225200400152125120215252325315352100320227327115356220);
  (0x4fd8, 0x125252452152225256325);
  (0x4fda, 0x125200);
  (0x4fdc, 0x459);
  (0x4fdd, 0x152125452217252256325227156100130327127132129320225331232330107117120128317315104229131230115207332220);
  (0x4fde, 0x127427327227128);
  (0x4fdf, 0x459327229);
  (0x4fe1, 0x125425252225152256227331232217325127200327130132315156115215231320332228131104229220107238120129317230117304330);
  (0x4fe3, 0x459325327227);
  (0x4fe6, 0x413227);
  (0x4fe8, 0x152);
  (0x4fe9, 0x422238225122222215322);
  (0x4fea, 0x225413227327);
  (0x4fed, 0x227200402315320100152327201215);
  (0x4fee, 0x152452252125256127227156327325130100228332217220229315120129330352115317132320225);
  (0x4fef, 0x152452115125227120320);
  (0x4ff1, 0x409125315152320100227327331232317332);
  (0x4ff3, 0x426125227);
  (0x4ff8, 0x427125225327227);
  (0x4ffa, 0x438138227);
  (0x4ffe, 0x129454130);
  (0x500c, 0x413225);
  (0x500d, 0x422222435125152207325107215327204220227127304132332315225322320);
  (0x500f, 0x107409);
  (0x5012, 0x452152252207125100315120215107320325115200256106225220156130327153352332362262);
  (0x5014, 0x100400);
  (0x5018, 0x106406152);
  (0x5019, 0x225252238220452207125104325256120152127227243204327331156332232);
  (0x501a, 0x452152227215252115327220125315);
  (0x501c, 0x227459315100327);
  (0x501f, 0x152452125234252134107156115120334325320215256315);
  (0x5021, 0x252152454125320325227327);
  (0x5025, 0x100315459);
  (0x5026, 0x200400252100125215);
  (0x5028, 0x402100413315);
  (0x5029, 0x227452327125427315);
  (0x502a, 0x127427225227220459327128);
  (0x502c, 0x413227327);
  (0x502d, 0x426125252);
  (0x502e, 0x413);
  (0x503a, 0x125425225252256325115220320331120315);
  (0x503c, 0x225252425152220325125100156320256120200315227215217452331327352332204);
  (0x503e, 0x152125452352325204115315156320327162107215227120332);
  (0x5043, 0x130115329125152);
  (0x5047, 0x400125152225252106200143343243156315325320215104220120117115256162317227217327132331);
  (0x5048, 0x413125227);
  (0x504c, 0x104438227);
  (0x504e, 0x452252152227220115315);
  (0x504f, 0x407400125152107207100112315103325320132156162130115252225104120332);
  (0x5055, 0x454152315330327);
  (0x505a, 0x452152252125352320215315115100220227325120327);
  (0x505c, 0x152452252207125325352100115315156227220120327317320225256356162362);
  (0x5065, 0x100200152227427225452125201325327156252320132332232315228162362120130107331131304);
  (0x506c, 0x200215459);
  (0x5076, 0x107100225125407425252215101325104327152227115220217332320232132156);
  (0x5077, 0x452152107207115225315156125117120153320215);
  (0x507b, 0x252325225459);
  (0x507e, 0x413);
  (0x507f, 0x256252152207325454215125315426156332320204);
  (0x5080, 0x125327);
  (0x5085, 0x225127427227232327128315130320152);
  (0x5088, 0x132427330227);
  (0x508d, 0x143452315252227456115);
  (0x50a3, 0x132417330125);
  (0x50a5, 0x215406200);
  (0x50a7, 0x125);
  (0x50a8, 0x125156217452152252256325127331225317327232120227454117132304332);
  (0x50a9, 0x413125);
  (0x50ac, 0x152452125156115132327120356227);
  (0x50b2, 0x200400100227107152125215127315115252327120220);
  (0x50ba, 0x459);
  (0x50bb, 0x400125152162120252200315215220115227327362);
  (0x50cf, 0x452252225152325256207125100200300320120332132327315232229);
  (0x50d6, 0x413327129227329);
  (0x50da, 0x225125320325356);
  (0x50e6, 0x413);
  (0x50e7, 0x227425125225327232117229115127426320132325315);
  (0x50ec, 0x459);
  (0x50ed, 0x413);
  (0x50ee, 0x225125);
  (0x50f3, 0x232332330459);
  (0x50f5, 0x125400152100162252320156200215401325327225362262);
  (0x50fb, 0x200402100125315325327);
  (0x5106, 0x413315352152227);
  (0x5107, 0x413);
  (0x510b, 0x130413227);
  (0x5112, 0x125227426417327132225162215325315228328120220);
  (0x5121, 0x225325459227);
  (0x513f, 0x225425125238227222207325243252220235327343320330262200322232332143120224426315215131331115229242132217212152117352204233333317);
  (0x5140, 0x402107252327227125325);
  (0x5141, 0x152454227200252327127100220125115315256);
  (0x5143, 0x222422235435225143125343327325127227232356132252320130243228204230330229100129332352215328135331);
  (0x5144, 0x125225426227327325320317331115120);
  (0x5145, 0x101152252100125452227107230325327320115315120132330156256104352);
  (0x5146, 0x327422225135227232454125215132332222426328325136152);
  (0x5148, 0x407125207107100327256252143152225227325104315115243220215320112135317228117331120130132217304229);
  (0x5149, 0x225125425227252327152325100232315117206115256127162332230320120107131262132204329331243215130156122220328104322135200129330229362352300228317217128231143);
  (0x514b, 0x327227225435330230325422222229127232152235129130332252329132135125331231115131328304215122200228315352322156256320204);
  (0x514d, 0x252152207452125206220156215325256320107104227317315352115132120327);
  (0x5151, 0x452152252256125227156325220);
  (0x5154, 0x426125225227325215115327315252320120243143132);
  (0x5155, 0x413227);
  (0x5156, 0x130413132327117227131);
  (0x515a, 0x225425125231325131331142252117238132127227230217232332320120315115215130256327304);
  (0x515c, 0x452152225142125320325227222425422232322252);
  (0x5162, 0x315215362262115228);
  (0x5165, 0x252225452152125315325130227215320256220317327129115100217156332120304331117352);
  (0x5168, 0x125400201122203101107252325104131200127132227115317315156327331120332215152320225220232117362262328322130230228129343330304);
  (0x516b, 0x122322125422222315143117320325225130243327332215132120115104131330331227124304343335142362232129317);
  (0x516c, 0x125325152101322135143104225426227335331122127327100256320404330156107315131115217332200120304252130215117207132317220356238438230232352229129328204103);
  (0x516d, 0x122322422222125143130243117315327330115227132229320317104325331329220332230232124225128142215);
  (0x516e, 0x460227362262215320327220);
  (0x5170, 0x230227330327332127417325130225331125129232229329132427228131217135426322117152315122215);
  (0x5171, 0x407125107331330152204217207325252320120315317104332327117132156131130215220227115225);
  (0x5173, 0x125152252256134225452230127320130156325330220227112327142315215131243425231117331132128332120100304352204217115);
  (0x5174, 0x152200204125452252230227130330327100256115220331225315232162325207320107117229120362132262127228231129317332131328201215);
  (0x5175, 0x225425125252227325256315327115152232215332120317352330231217331320130131220228156356);
  (0x5176, 0x438138207107206106315230112327143227330325320140307125115132306352332120328225331204228127);
  (0x5177, 0x152225100454252222320220422325315106125327332227120232115330215352);
  (0x5178, 0x125225230204426325227100152327331315332252215330156232);
  (0x5179, 0x227327330439230235129229232329331115215315125225);
  (0x517b, 0x252225452152156125325127327320256315115227120332100215352117304132220129331130317);
  (0x517c, 0x452152315115320227252125327156207120215317);
  (0x517d, 0x225426125227215315327325252132120220);
  (0x5180, 0x130417127317427331252131217227330327125256117225132);
  (0x5185, 0x412242125112212142325130245225342243330152104127232327100230229207332227129204115317131238156117320312217331329220252315307215256120200132162);
  (0x5188, 0x230330130225229132129232127125325227329331);
  (0x5189, 0x127207107227427327463);
  (0x518c, 0x252225435222152325422125220227331327215217232130);
  (0x518d, 0x407107207152106327115315125120227129215320325156332117);
  (0x5192, 0x452152252125256100315115156325225362162320153317104356220227);
  (0x5195, 0x252426225315227129130325327125);
  (0x5197, 0x402100125200207);
  (0x5199, 0x452152252125225325215156204227256217352315327332132);
  (0x519b, 0x225125425227252217231331327142104325315117320120228256131215130152330115220304156317332232352343229132);
  (0x519c, 0x125426117225331325127132120232131227252217152204332304327330104317320229130256220230129215315);
  (0x51a0, 0x125452225327227152120315115252325132215204217320117332232328130417220330104156);
  (0x51a2, 0x426327225229227115);
  (0x51a4, 0x125452152252315117115225215320120);
  (0x51a5, 0x426125120320200156227115100327315152252);
  (0x51ac, 0x143444125252243152227225327117127120343320129130220104325132330315233156352100333262328332);
  (0x51af, 0x127427422227327128130229315);
  (0x51b0, 0x125425327227162143330252152325225127130256142115362262215131129315132228343320331);
  (0x51b2, 0x452156152125225227252100134256215362262327315162325130230115228328132332120232103352330);
  (0x51b3, 0x152252125407201256107452325352156215320115220200227315204327454317120332);
  (0x51b5, 0x225206106220427127315320227325107426125327215331);
  (0x51b6, 0x125217152454230327227252156330200331225256320328131100);
  (0x51b7, 0x400125152100200127156262162227107230320252362225256325103115130327204352215143332315132117120217129104330307);
  (0x51bb, 0x152452252125225256325343215327315320220227104332);
  (0x51bc, 0x127427128);
  (0x51bd, 0x200227413);
  (0x51c0, 0x125400200152252325362262215227332330220315162327320130100232225132);
  (0x51c4, 0x100402162103200115362315215262);
  (0x51c6, 0x152225252400125100130325356332227320352200107156343331207132327204120101228117217215307315);
  (0x51c7, 0x459225227327);
  (0x51c9, 0x452200125227100262252327129330130230203162220325152132215243362417320225400156);
  (0x51cb, 0x152100454315);
  (0x51cc, 0x127143152100427227327252225330130315132230156256454125320128362232262332426129328120);
  (0x51cf, 0x152252156452125256315117215325132120220332);
  (0x51d1, 0x452152200100252304215227362162101256220);
  (0x51db, 0x162315215262100327);
  (0x51dd, 0x152325454125100256127227327132252315162120156225332200);
  (0x51e0, 0x122107322422125130138222225327215330120220320206315238207124115227325229117152324);
  (0x51e1, 0x407107262125227207130200127327230220252229315320115142215317129329122362100120325);
  (0x51e4, 0x127327125227130426427225132325115315230215232129332330229320);
  (0x51eb, 0x152);
  (0x51ed, 0x434134125252107225152130215227315327104115325320);
  (0x51ef, 0x227127129427327125132152130330232426115252230228325329229);
  (0x51f0, 0x225330426332227220325232315327459);
  (0x51f3, 0x225426125227220);
  (0x51f6, 0x400100125225252115315103152101162320156);
  (0x51f8, 0x152402125454225320332120100156327325227315);
  (0x51f9, 0x400152125225120132200227156320228);
  (0x51fa, 0x152252452156125200225100222115356315215325331256120320352117157122220322300104317422327227132129332204);
  (0x51fb, 0x252256152325454215204320225220227327315125156232115331);
  (0x51fc, 0x413130327227);
  (0x51fd, 0x125425225320252325227152156327117331315);
  (0x51ff, 0x452252200152125315215220225227115320120);
  (0x5200, 0x425225125222252315115227325352327320215220104232422332435330128120);
  (0x5201, 0x127400100152125115252427325227320128156);
  (0x5203, 0x426225315325215125227327152252);
  (0x5206, 0x152225156125435107222207325201252422220322122320224315135104120324100115200235227256130331327243215117300352132229204332142217129362262335);
  (0x5207, 0x238201200152452101125252107315256215120327156325129227320225207362262115220130104132329230162100330131332229232127);
  (0x5208, 0x454152227);
  (0x520a, 0x225152125252426238454325227320327232117332);
  (0x520d, 0x252152325125);
  (0x520e, 0x252413);
  (0x5211, 0x125425225252104117220127120325115315256215132152327331332);
  (0x5212, 0x225152252452325320100104125232331315256220207217227304352204120156228115327332);
  (0x5216, 0x413);
  (0x5217, 0x222252452152225235125325204230127327330156130227129315422329352217220115331320229131122356256304135322332);
  (0x5218, 0x127427128327227130125129131132117230330);
  (0x5219, 0x407225206222327200307227252422325320230315330215145120128201220328329204);
  (0x521a, 0x407107207143227125225100325130327115127215228330103200320315230131);
  (0x521b, 0x125152156225454252117256325132232227217131332320327331315115317104204);
  (0x521d, 0x412243107112207143125152104227204120127327343156315115232325252220332238224215320117228132217317);
  (0x5220, 0x152452252115156125227);
  (0x5224, 0x152256252452156125325225115220327227332);
  (0x5228, 0x452125115152225325132);
  (0x5229, 0x125225152330325230200425352256327227252100201127232320229130332220331315329129215132304356204120115131228217328362162231156343);
  (0x522b, 0x207138407225252200125152330127100325115215352315106120256104332227327132107356320129331230162362220130329);
  (0x522d, 0x413227);
  (0x522e, 0x452152252125115325156315362132162225120262);
  (0x5230, 0x452252107152220156320120315200256215125327325332317227);
  (0x5233, 0x413);
  (0x5236, 0x252152125225452256325156320204315227352217331304220232327332132317356215129200120307);
  (0x5237, 0x252152452256325362262125225220162133332132);
  (0x5238, 0x225125325331426231352232220332330320215317);
  (0x5239, 0x143125452343225152320330227229252332);
  (0x523a, 0x152452125252225100256162325320227327130315133352132220332232156);
  (0x523b, 0x207225222200452238152125252215107343100115322325101220320315324227243156256129135);
  (0x523d, 0x125);
  (0x523f, 0x413);
  (0x5240, 0x227459327);
  (0x5241, 0x452152);
  (0x5242, 0x225426125435232252325227320);
  (0x5243, 0x452156125152325);
  (0x524a, 0x152252452325200100204125115256227120225327332232104);
  (0x524c, 0x452327233);
  (0x524d, 0x412243212125112152252242143138142115200315227320104120207230215327204325117220130132229312330228342225129343332352201331256306131232);
  (0x5250, 0x452215);
  (0x5251, 0x425225227327125130131252232215256331315115220132325320328228127129);
  (0x5254, 0x152252452315425220125100115132);
  (0x5256, 0x152325125252452156215320115227327);
  (0x525c, 0x452115);
  (0x525e, 0x459);
  (0x5261, 0x452130227);
  (0x5265, 0x152452125252256156215227315320133132);
  (0x5267, 0x225125252100425207325331152238320330352156232117332327);
  (0x5269, 0x120152252452125156220315320327227);
  (0x526a, 0x452125156152252256225132327115227332);
  (0x526f, 0x404125222315204317104225325252320422327217215);
  (0x5272, 0x252452152220225325125320156129215315256343115332);
  (0x527d, 0x100152156125);
  (0x527f, 0x452252152256156);
  (0x5281, 0x452);
  (0x5282, 0x459);
  (0x5288, 0x452107152115125133225120333252215132156);
  (0x5293, 0x413);
  (0x529b, 0x225125425207252201325200152227220320327232215315132115204229332331256330231120328129128228304217329230352);
  (0x529d, 0x452152252156227125132330220327230331115);
  (0x529e, 0x125452252152156225325217256331204320227215231117317232132220327);
  (0x529f, 0x125200425225325252227304315115228215352320327120256132330156220229232331);
  (0x52a0, 0x152252207452156330130125325127230106327227129331315256232107352135229131225320132332104120215220329122115306322317117253217);
  (0x52a1, 0x225256325331204407107152320220315217426327227215125332409229317252454130328304343);
  (0x52a2, 0x413227);
  (0x52a3, 0x200125225400104320217204402152426252315327115220);
  (0x52a8, 0x256252125325225452200152207320201220204315215232356117103100332107304352120227331115156343330327300231203132104);
  (0x52a9, 0x252256352125452152325156104225315227204215207320115120200117327304330220332132317);
  (0x52aa, 0x101327452129227152330320130230329229325127);
  (0x52ab, 0x252452152425125315225227325215156115143320256220120327);
  (0x52ac, 0x413100227);
  (0x52ad, 0x227413327228);
  (0x52b1, 0x252256125115427127227325327152454220);
  (0x52b2, 0x200425125252307225327152325227300100207220315215352132);
  (0x52b3, 0x156125200320452127120225152100252327215325315331227330115329232131132229129220130143230201117332101217343256);
  (0x52be, 0x252413227327);
  (0x52bf, 0x225125426252207315107253115215325227320220100120327232330230200);
  (0x52c3, 0x215315402156200327227132162115130320262232201225220127129152120330362125352229);
  (0x52c7, 0x227125100425200152207327215315325225220204115228402101252320427407120352217);
  (0x52c9, 0x152454201227252200115327362162215409130);
  (0x52cb, 0x227125426225327132252);
  (0x52d0, 0x413130227129327);
  (0x52d2, 0x227452330327229232230225152129125325252329315331130332132);
  (0x52d6, 0x413227327);
  (0x52d8, 0x156152454252125325217327);
  (0x52df, 0x152454200252256156125325);
  (0x52e4, 0x225100400200125227152101327252256325120217317115130331162362230201229232117330315220332215320);
  (0x52f0, 0x413227327);
  (0x52fa, 0x435225125227222426327422252129232325);
  (0x52fe, 0x152452125127129362262115315227162225232);
  (0x52ff, 0x407207252125315327227115120320);
  (0x5300, 0x200452100201252230107104256327120330332227400125262162);
  (0x5305, 0x152452125225127252156325222130320132422315215115120327220227217232131104332200256128330);
  (0x5306, 0x162262100307207362101215315327227);
  (0x5308, 0x125130417132131);
  (0x530d, 0x152125);
  (0x530f, 0x459327);
  (0x5310, 0x252459325);
  (0x5315, 0x125315);
  (0x5316, 0x252256125225325452217152332320230120227327331232220317127330315115215243200156204343231129130132131104229328207228);
  (0x5317, 0x130412112230242212125143330312131127117142325132343152104331327227317225320120220215217315252342129232332229329115328);
  (0x5319, 0x225325125229);
  (0x531d, 0x435454125362262227225);
  (0x5320, 0x225426125325227215315115320220230);
  (0x5321, 0x327127427152227315454115);
  (0x5323, 0x125225230325);
  (0x5326, 0x413);
  (0x532a, 0x225426125252115409320256227325);
  (0x532e, 0x152454315215);
  (0x5339, 0x222152225435332130422325125156315115331227330454107229132129);
  (0x533a, 0x225125230425242152325128238231217227142104204127252331220232162262156320112120332304352327117215132229356256);
  (0x533b, 0x125225452117325331252104152227332426156217320220327315130256215317132204);
  (0x533e, 0x425125225327232);
  (0x533f, 0x252454152315125227156325256);
  (0x5341, 0x322122107422222143117125120162132320115325124327130215315329332243252331225152227324330220131104317352232);
  (0x5343, 0x122322335222422115135125315320127130327120225215107124227332104325252324132228220328224330);
  (0x5345, 0x332422222122322);
  (0x5347, 0x252152452156227325125222327220120235129100232315132256230229228225117130215329320332104224);
  (0x5348, 0x243143444125130332325152222343227327225322320220117);
  (0x5349, 0x225426227325327331);
  (0x534a, 0x122422343125222330325322207143115252142315320104120127130107243327212124152225215162227352362317132156);
  (0x534e, 0x130417232132125227127330325331200252327225131100217230332228256315129117215229128322104231220115328120135329320343122262);
  (0x534f, 0x125152331217454231252156332325132315227225131117320327107409317115104);
  (0x5351, 0x225125100402330200315215130325120115227103332320);
  (0x5352, 0x426225454227215200125315327252409152);
  (0x5353, 0x100127227427327115315125162330152130129262132328120);
  (0x5355, 0x125407200225104100107127252207217206152132325320115227362262327352230315120330130317322229356128304);
  (0x5356, 0x452252152125325100315120115327156220256320225331215132332352232);
  (0x5357, 0x230130412112330212242143125127325312331227327117225131132129156332152142229120320104315217115317234232342220329228128);
  (0x535a, 0x125227127427152327330130252325100426156454230200417115129317120220232229132315217332215256117329331262228131320);
  (0x535c, 0x225427127327252325227329125426454152328330315320220128229);
  (0x535e, 0x127427227327);
  (0x535f, 0x459);
  (0x5360, 0x452152252127125325327227330256120315156332220215328);
  (0x5361, 0x127425225125327129227130132230330325229252332152329235232135452320104238256217131331224);
  (0x5362, 0x127130125417327227427225230129330128132325329229332135232);
  (0x5363, 0x413227);
  (0x5364, 0x125425452152225332325100132232);
  (0x5366, 0x425225252325227330256125215435);
  (0x5367, 0x452125130252152315104120115225227220325352156215330256);
  (0x536b, 0x125252103325225452227127327256131331332217230232330229132104129130117320152220427315352215120143317328);
  (0x536e, 0x413227);
  (0x536f, 0x222252220225315320322115215143125);
  (0x5370, 0x130125452152252225132156127325331227131117327232256320215332204317220315129);
  (0x5371, 0x125103152100320225427115252200215315127130426227417132262256454402220327325117330131229228317);
  (0x5373, 0x452207106107152315143252130104125320327215115120132);
  (0x5374, 0x407107152252127256325315220115332327232330);
  (0x5375, 0x425125252225325256104343327215320);
  (0x5377, 0x222435422225125152252115320325232227315120204132238130327330256142215217156104);
  (0x5378, 0x452152252256325327232132115315317);
  (0x537a, 0x252413);
  (0x537f, 0x227427225426127327330228115315215320);
  (0x5382, 0x225125425252325231230238117352227330327217320130332104);
  (0x5384, 0x417130125327227129229329230203225131132352);
  (0x5385, 0x225425125231227230242304104332327117215232);
  (0x5386, 0x125225152252107452243330127232104407227130115325120315331230207327329320454129343304220256204332);
  (0x5389, 0x100201107200215127427125315327227152115128120402);
  (0x538b, 0x125225252452152325256156107362262232204120315132332320104220217115);
  (0x538c, 0x152252454315156215125225220320325200227);
  (0x538d, 0x413127227);
  (0x5395, 0x125225426325252);
  (0x5398, 0x122135435322335230235156327330152225125215325315);
  (0x539a, 0x400200125100227162362225327215132315115152252325220207107320204131262);
  (0x539d, 0x330229);
  (0x539f, 0x125225404107230152100325252127227120330104327115229156130331215132315256204232352320142231117332217220304);
  (0x53a2, 0x225125435426332315227232104320330215229);
  (0x53a3, 0x413);
  (0x53a5, 0x225438252332227327325315);
  (0x53a6, 0x130225417131230215231332132227327315125426232117);
  (0x53a8, 0x125426225252232130117);
  (0x53a9, 0x225125);
  (0x53ae, 0x152225315156);
  (0x53b6, 0x413);
  (0x53bb, 0x452252243143152125315157215220320327325132362262227225115120);
  (0x53bf, 0x230425125225238227104327325229330117252304156220231130331);
  (0x53c1, 0x422122227222322);
  (0x53c2, 0x152125425225325417156320227327100331115162315117330217132120232228454131);
  (0x53c8, 0x407125320327120227315332127106);
  (0x53c9, 0x425325252452225227152256125204327220320232);
  (0x53ca, 0x406206252106101230215315330107134325152227125225234327332220331320228352304115);
  (0x53cb, 0x225125100426227327425220252130232215325127152217332320331132330315129131228256117230229204);
  (0x53cc, 0x125422122222104127132327238107130330322227315117152252143320215115217120131328228129317230325124332232);
  (0x53cd, 0x152452107156252125325100106320315112115117206120215132204256217332104352220317131);
  (0x53d1, 0x152156252125452325100120225217207331232256215422320227327222332315204117220115132330231317143104230304229352328130200224324228);
  (0x53d4, 0x425227225125327325229129132328);
  (0x53d6, 0x252152452125115315156227325320220327200215256117317120132229332331330);
  (0x53d7, 0x452152252125200120325100315215156220115320327204332227256352130);
  (0x53d8, 0x156152252452125320225256232215325120262115220327315200132332217227352204104304);
  (0x53d9, 0x152452130125252156227327225325120320131215330);
  (0x53db, 0x152125252315256156325215);
  (0x53df, 0x413227225327315);
  (0x53e0, 0x252452222152343125262325332304322362156162227315327225232256320220115130);
  (0x53e3, 0x225256435125222242325230252315142152330331227207200156215220115304327320229130422120332324217352307224201232338204317107300104100);
  (0x53e4, 0x125143400230325100127130330104256207227225320332243327152252315329132129115331343107229120131215262362162128220307317232200204);
  (0x53e5, 0x222435225125306235135330215422315130252322220120207320325);
  (0x53e6, 0x438106107125115152120227327315);
  (0x53e8, 0x252262362152256);
  (0x53e9, 0x152454125252327227);
  (0x53ea, 0x407222107152106422225115206227104120207315125215325330352);
  (0x53eb, 0x452152252125215325256227115156320327315100104262328130);
  (0x53ec, 0x152427252227454426325327125156330230256115);
  (0x53ed, 0x225433325333233125232133220);
  (0x53ee, 0x152452133320333227120315327);
  (0x53ef, 0x152452106252100125315120320327207307325227225256306115156215107104132229162330220352130332129331131228329230232317);
  (0x53f0, 0x225130435252125222230142330422325231117227327127131220232332229217315104238331320317242132207304224228215204135352129122329322);
  (0x53f1, 0x152115252);
  (0x53f2, 0x225426125127325227320104330331232327115252220130315317215129132120204329128230217332);
  (0x53f3, 0x222412125112322315142104325227225130327320220330317252204129215328229217132);
  (0x53f5, 0x152315);
  (0x53f6, 0x225127125425325243417227452222130327212427232315215422229129332230128132220115426330435331320343120);
  (0x53f7, 0x225435422125152222252325232204315227120320220215356256332327304);
  (0x53f8, 0x225125127426231325235425227327220252230115222129128131315332130330331352152117104217215132229304317232);
  (0x53f9, 0x452252152227325215315115320200256125220);
  (0x53fb, 0x413230330);
  (0x53fc, 0x452);
  (0x53fd, 0x133433333233225152120);
  (0x5401, 0x252315454215362262152410227325433327);
  (0x5403, 0x452152100252315200125120320225115325220215227117352);
  (0x5404, 0x138438320120100115330229227230327152315329162325130104);
  (0x5406, 0x152452125120156320227);
  (0x5408, 0x252152256125325156100452331225320304130300227315215120332330327217115230204132104220232117107131352317356200207342229129362262228);
  (0x5409, 0x127130327125417227330129230100332229132131215315325115225329262120252331117220320232228);
  (0x540a, 0x452125152252315225132120115325156327130320215104);
  (0x540c, 0x200434106125107117207152252225104112306325153315215230234320115227130327331156220256127132138120143355330129131332228122232352217304342);
  (0x540d, 0x125252435222225200422152315325115327320215100120220227256230130330117204207132253127232300343129228);
  (0x540e, 0x412212243125206207143112225138227200152252156242320127115315104220325215130204327312132117217317120342129343352331330142332329);
  (0x540f, 0x225125426227215327130232);
  (0x5410, 0x452130252152325315125215256225127132327227320133129115330331120329);
  (0x5411, 0x434225252152207127107325125327204212134320200315217215304256130232328229104128227129132143332220156331115);
  (0x5412, 0x229413227);
  (0x5413, 0x452152252227256100325327315);
  (0x5415, 0x127427327227130125329129225330229232315215);
  (0x5416, 0x459125227);
  (0x5417, 0x460252125325);
  (0x541b, 0x425125227132225327130120315452252229325230330220129331232300332152426328115215127320238352);
  (0x541d, 0x100152252200454125315227);
  (0x541e, 0x152452315125252115156362262120325330130200225215);
  (0x541f, 0x252452152362262227327215225228115315156232);
  (0x5420, 0x454225125252215315320);
  (0x5421, 0x125332132325);
  (0x5423, 0x452227);
  (0x5426, 0x252106152454460245352215125320315115227325225);
  (0x5427, 0x460225133152125233227325220232);
  (0x5428, 0x222435422325104125304235322225135117);
  (0x5429, 0x152156225325125);
  (0x542b, 0x452125252152100127115156227327362162225132325120300315320130129);
  (0x542c, 0x452152252125200315227100225215115325127256327320156120352104132);
  (0x542d, 0x152452220133315252227);
  (0x542e, 0x452252152227);
  (0x542f, 0x152452252327156227243125130120315320132104129328304);
  (0x5431, 0x433152233133333125325227);
  (0x5432, 0x125459);
  (0x5434, 0x127427230130227125327128331332117115329131232129);
  (0x5435, 0x452152252352256320227156125325);
  (0x5438, 0x152452252125325320156220256132120225204104232315327304);
  (0x5439, 0x452152252315125156115320325227327120215132);
  (0x543b, 0x452225152252125325227);
  (0x543c, 0x452152252125227325215225156);
  (0x543e, 0x438332227330252327352138230331315228129320120);
  (0x5440, 0x460210233333360260227325225327315);
  (0x5443, 0x460152);
  (0x5446, 0x452125362215252162100262325152227115117327315225);
  (0x5448, 0x452152252327227225125215220315127130);
  (0x544a, 0x225152252452325125120315320227256220332215115130343217327156);
  (0x544b, 0x125325132332);
  (0x5450, 0x152460225125156315120325227327);
  (0x5453, 0x225125);
  (0x5454, 0x410413);
  (0x5455, 0x152460156115252215);
  (0x5456, 0x233133);
  (0x5457, 0x460233);
  (0x5458, 0x225325331125435252222327220425227315256317320217127422215130304330);
  (0x5459, 0x427);
  (0x545b, 0x452252100152);
  (0x545c, 0x433152120320110315227327);
  (0x5462, 0x460125225260152132227156);
  (0x5464, 0x225459232325227);
  (0x5466, 0x410);
  (0x5468, 0x243143125127427325112222212422227152225122100238130156132327322315128135230228320115129120435200312101229330217300252103215);
  (0x5471, 0x133233362162152252115315333262);
  (0x5472, 0x452);
  (0x5473, 0x225352125426252207325215222200315232220227332331327320204132422115100330256300);
  (0x5475, 0x452460152156362262315125227352130327200);
  (0x5476, 0x413);
  (0x5477, 0x452227);
  (0x5478, 0x410);
  (0x547b, 0x152315);
  (0x547c, 0x152252452125127130225315320362115325133262156120215210117227162132333327352256129220330131);
  (0x547d, 0x256225425125252152325232215331207332227220320315330200327204100352120262356104452156143115);
  (0x5480, 0x152230315);
  (0x5482, 0x452152325125);
  (0x5484, 0x115315152);
  (0x5486, 0x152120125);
  (0x548b, 0x438138152362162);
  (0x548c, 0x406125132330127252200325225100232327152130230227156332228331115256229120217215129315143362320162220262104328304131101204);
  (0x548e, 0x252426215320115220315227);
  (0x548f, 0x152225125252228325328);
  (0x5490, 0x252256459220);
  (0x5492, 0x452252125152225315156);
  (0x5494, 0x433133125);
  (0x5495, 0x133433152252233362333262220320);
  (0x5496, 0x125132);
  (0x5499, 0x225459);
  (0x549a, 0x233433133333262327227);
  (0x549b, 0x252459320220);
  (0x549d, 0x433125325227);
  (0x54a3, 0x433133227);
  (0x54a4, 0x315252459);
  (0x54a6, 0x410327);
  (0x54a7, 0x452362262152315125325327);
  (0x54a8, 0x156125117331217143332132);
  (0x54a9, 0x433);
  (0x54aa, 0x125225132233133332325227327);
  (0x54ab, 0x315125115120);
  (0x54ac, 0x452152115125252352120315227156327325320225);
  (0x54ad, 0x433);
  (0x54af, 0x133452233152225333232325460227327);
  (0x54b1, 0x138438);
  (0x54b3, 0x152452256252132225125325410115332);
  (0x54b4, 0x459133333);
  (0x54b8, 0x130400125127227427327132330320252426);
  (0x54bb, 0x413262362);
  (0x54bd, 0x452252125152220320215225325227);
  (0x54bf, 0x133333115);
  (0x54c0, 0x152454100125200203103252327227315130115132156162320402);
  (0x54c1, 0x225125325452222152320331220217204252227352327232422330332156315115135238304317127129215104);
  (0x54c2, 0x454152);
  (0x54c4, 0x452152362262252156315115125227327256225);
  (0x54c6, 0x152352162362);
  (0x54c7, 0x460133230233330325229120110);
  (0x54c8, 0x330417130127129233133327320120131132125325229227230329331333332232362262117210352225162110252152215128);
  (0x54c9, 0x460227200220215315245327320);
  (0x54cc, 0x125325332225132);
  (0x54cd, 0x256452152225325252125222100220215227162130115422327400200);
  (0x54ce, 0x410110160);
  (0x54cf, 0x252);
  (0x54d0, 0x433133);
  (0x54d1, 0x125452200115325215225252162217120104352320132);
  (0x54d2, 0x433233459252125333);
  (0x54d4, 0x125);
  (0x54d5, 0x413);
  (0x54d7, 0x454133252152162333115362315433227327);
  (0x54d9, 0x227413);
  (0x54da, 0x225227);
  (0x54dc, 0x413);
  (0x54dd, 0x252459);
  (0x54de, 0x433);
  (0x54df, 0x460210227);
  (0x54e5, 0x225125425130230227330327331325131127132104232329129315417332);
  (0x54e6, 0x410252433);
  (0x54e7, 0x233433333133);
  (0x54e8, 0x426125225435252227233200262325362229);
  (0x54e9, 0x460435227225362332162320);
  (0x54ea, 0x138438106124129120327227);
  (0x54ed, 0x452252152125315115120362162215220256320227156132327);
  (0x54ee, 0x252125320325);
  (0x54f2, 0x125427327227130129225332426331217315328117200228);
  (0x54f3, 0x459);
  (0x54fa, 0x125152454120215252156327);
  (0x54fc, 0x452152252362262125162133315);
  (0x54fd, 0x152452);
  (0x54ff, 0x413327);
  (0x5501, 0x252125256);
  (0x5506, 0x252152325);
  (0x5507, 0x225426125227132325315115327120320352117);
  (0x5509, 0x410115152);
  (0x550f, 0x152);
  (0x5510, 0x127143427243417130227444232125200327332217129325330152329128431132131230229331228);
  (0x5511, 0x225459232325332);
  (0x5514, 0x460233);
  (0x551b, 0x413);
  (0x5520, 0x152452362162156252);
  (0x5522, 0x125);
  (0x5523, 0x200459);
  (0x5524, 0x454252227152315256215327325320);
  (0x5527, 0x133233252452125333262362152);
  (0x552a, 0x413227);
  (0x552c, 0x452252152);
  (0x552e, 0x256252452325125152120156317320217220132332);
  (0x552f, 0x104125407152325227107120100327320115315132130);
  (0x5531, 0x452252152125325225256315120227320220331156115217332327352);
  (0x5533, 0x215413);
  (0x5537, 0x459227233);
  (0x553c, 0x459);
  (0x553e, 0x125452152115);
  (0x553f, 0x459125);
  (0x5541, 0x459133);
  (0x5543, 0x452320120315152);
  (0x5544, 0x452125152215233);
  (0x5546, 0x125225152425252331131130325127256317143120227332117156217327320232330304243315343132104231220);
  (0x5549, 0x225459227);
  (0x554a, 0x460110227125327);
  (0x5550, 0x452);
  (0x5555, 0x207320252413);
  (0x5556, 0x454227);
  (0x555c, 0x454152125);
  (0x5561, 0x225325459332227);
  (0x5564, 0x125217331325225132);
  (0x5565, 0x438238138125);
  (0x5566, 0x460233333262227325332362125232225);
  (0x5567, 0x233133433120320115315125325410);
  (0x556a, 0x433233333133);
  (0x556c, 0x200402325413327);
  (0x556d, 0x413252);
  (0x556e, 0x125454104152252);
  (0x5575, 0x460);
  (0x5576, 0x225459325232332);
  (0x5577, 0x459233);
  (0x5578, 0x225252452227327125220120152215228127);
  (0x557b, 0x413252207327);
  (0x557c, 0x152452362262225125115156227320315);
  (0x557e, 0x459233);
  (0x5580, 0x130417330327132227133225433125329332131129);
  (0x5581, 0x413);
  (0x5582, 0x452152156252227);
  (0x5583, 0x233133225115315325252332227327256);
  (0x5584, 0x252452152200125100227201327315230115409320330215225325402220130120352204229331);
  (0x5587, 0x125427330227325327225233333320130);
  (0x5588, 0x227459);
  (0x5589, 0x125426225325252132215332220);
  (0x558a, 0x452252152125315325227256156215320115327);
  (0x558b, 0x115315152325);
  (0x558f, 0x410252459227);
  (0x5591, 0x152215);
  (0x5594, 0x433410);
  (0x5598, 0x452152225315325252215162156232362262352125);
  (0x5599, 0x426215);
  (0x559c, 0x152452125252225200227100115130327315215162220320325330207256120230362262132352129156228232229332103);
  (0x559d, 0x454152252156220227320315325200120130125225215256);
  (0x559f, 0x413152256);
  (0x55a7, 0x152454156315125115252100227327402);
  (0x55b1, 0x459332225325);
  (0x55b3, 0x233333433133);
  (0x55b5, 0x433);
  (0x55b7, 0x152452125252104156352362262132232315162325115327204227120100320225304130);
  (0x55b9, 0x125225132);
  (0x55bb, 0x215225127252427315152227454426256320327130);
  (0x55bd, 0x125460445327);
  (0x55be, 0x413229227);
  (0x55c4, 0x410413);
  (0x55c5, 0x452125152);
  (0x55c9, 0x125);
  (0x55cc, 0x413);
  (0x55cd, 0x452);
  (0x55d1, 0x452252);
  (0x55d2, 0x433233);
  (0x55d3, 0x125435426325332225352);
  (0x55d4, 0x152252315);
  (0x55d6, 0x433233133362262);
  (0x55dc, 0x454125152115);
  (0x55dd, 0x252225125352);
  (0x55df, 0x152115252315);
  (0x55e1, 0x233133433);
  (0x55e3, 0x327426227143225252328125);
  (0x55e4, 0x454115233152);
  (0x55e5, 0x413225152327);
  (0x55e6, 0x252459200262);
  (0x55e8, 0x410110);
  (0x55ea, 0x225413325232);
  (0x55eb, 0x152162362);
  (0x55ec, 0x410110227);
  (0x55ef, 0x410);
  (0x55f2, 0x320120);
  (0x55f3, 0x410125);
  (0x55f5, 0x433);
  (0x55f7, 0x233133152115352315);
  (0x55fd, 0x252325);
  (0x55fe, 0x413);
  (0x5600, 0x152320362162133);
  (0x5601, 0x333133);
  (0x5608, 0x100162362);
  (0x5609, 0x417327127130227143132125330230232152217200156129332331131229325);
  (0x560c, 0x413125325332);
  (0x560e, 0x433133327233330227333230132228129232130127162);
  (0x560f, 0x413227);
  (0x5618, 0x252452125325225115362262220410152320256);
  (0x561b, 0x460225325230330);
  (0x561e, 0x460);
  (0x561f, 0x152233433133362162135333262227327);
  (0x5623, 0x433362);
  (0x5624, 0x433227);
  (0x5627, 0x125459325227);
  (0x562c, 0x452);
  (0x562d, 0x433);
  (0x5631, 0x152252225454156320325215);
  (0x5632, 0x152252454156315220256125215);
  (0x5634, 0x425125142252225230227315325100330220215152232320327207200120115352);
  (0x5636, 0x454100152315225215327433);
  (0x5639, 0x100);
  (0x563b, 0x433362262152162410227115327210);
  (0x563f, 0x233133410);
  (0x564c, 0x433459);
  (0x564d, 0x454);
  (0x564e, 0x452152252315125);
  (0x5654, 0x433233);
  (0x5657, 0x433133);
  (0x5658, 0x452152);
  (0x5659, 0x452227);
  (0x565c, 0x233225252333235100262220);
  (0x5662, 0x460410);
  (0x5664, 0x225115125220);
  (0x5668, 0x225125425325232220227343320152231331252419200215327104352156115228204217315120332304330);
  (0x5669, 0x125362262200215315);
  (0x566a, 0x125252426200320332215454256225100325);
  (0x566b, 0x410110);
  (0x566c, 0x252454125320115215);
  (0x5671, 0x125);
  (0x5676, 0x330459129130325125227332132);
  (0x567b, 0x125220225325);
  (0x567c, 0x133333);
  (0x5685, 0x252459262362);
  (0x5686, 0x459);
  (0x568e, 0x452152107252215225125227);
  (0x568f, 0x225252125233);
  (0x5693, 0x233433333);
  (0x56a3, 0x252100256454315120227225325200);
  (0x56af, 0x410);
  (0x56b7, 0x452252152352362262256);
  (0x56bc, 0x452252315125320152325);
  (0x56ca, 0x225426125152142325200227315215362262115252120232129330130);
  (0x56d4, 0x252262362152);
  (0x56da, 0x125454152225252325156);
  (0x56db, 0x122422322130222124125117112327243107143325115343152129332131225132227315320104215120230330238331229232317217304127220);
  (0x56de, 0x152452252125222156224132256320130315330325115227243422215327362262220120225230204128304331);
  (0x56df, 0x125);
  (0x56e0, 0x106434225125306115327227229152352107315325215329320330232252120230129130134156132332228);
  (0x56e1, 0x225);
  (0x56e2, 0x225125425231325100222152252331422207107332238315232320227130215200220217115117352104327120131317304135162362156143356);
  (0x56e4, 0x452152115225);
  (0x56eb, 0x107115);
  (0x56ed, 0x225125426230227330142325327217252435232229315332256238152356156231132104317);
  (0x56f0, 0x103125200452100152252325315204215120256352115320217356327);
  (0x56f1, 0x225459);
  (0x56f4, 0x225212152452252125325227156320220115327120315230204330331130132232);
  (0x56f5, 0x207315459);
  (0x56f9, 0x315125);
  (0x56fa, 0x100252125417200120152106325104454227130256215327320115230332132217229232201330129156225352315131);
  (0x56fd, 0x230125225425331142325238131327252320156117132227332104231127200330143204152256243120229315232115215228130304317220129328242217352356329);
  (0x56fe, 0x425125225252227129327325130230232256315152229330215331320332127329220217120115228156132135);
  (0x56ff, 0x454225152);
  (0x5703, 0x426225227327130325);
  (0x5704, 0x215225459);
  (0x5706, 0x125454225425325100227327252130262120162362152200452320315143104400215127232220132117228328343352);
  (0x5708, 0x225222125435452152425325232352130156320422135252327227230132220);
  (0x5709, 0x413327);
  (0x570a, 0x413);
  (0x571c, 0x459125227);
  (0x571f, 0x125225425252130325330315132120320227331215327152115232256129352332100127217131362162104220229230156143117);
  (0x5723, 0x125417130230227327200143129132252100225232127320331330325231315352215131343228329);
  (0x5728, 0x434252243152207145225315204325156320104327352220362262115215138129100125227107120200332331228);
  (0x5729, 0x125230130228);
  (0x572a, 0x125130);
  (0x572c, 0x413);
  (0x572d, 0x230130417227125330327325225315129331131);
  (0x572e, 0x413);
  (0x572f, 0x227413);
  (0x5730, 0x450125225142317242330238262252207325230215130152245315220232132320127332327227307229117120100129115104352217331342256131304235204306356343143156);
  (0x5733, 0x230330331325);
  (0x5739, 0x426225);
  (0x573a, 0x225125222435242252325224142352230207238220320422215315112204217330322135235332327331200256231227232122317);
  (0x573b, 0x230227413330327);
  (0x573e, 0x225325459);
  (0x5740, 0x225426252227230256330327325);
  (0x5742, 0x330425225230127327229129130132);
  (0x5747, 0x407200217100125325227152320207327352132101315130332156304230129);
  (0x574a, 0x225426230125227232330327325130332304);
  (0x574c, 0x413);
  (0x574d, 0x152452252);
  (0x574e, 0x426129100225227125130327135325229120329362162230);
  (0x574f, 0x252400125152225325215320220317120262332362227315);
  (0x5750, 0x452152252125115215325320225120315227156104132327256);
  (0x5751, 0x425225125252230152120320315229220227325452330100);
  (0x5757, 0x225222435238207242307125422252325215135332342232132320315);
  (0x575a, 0x152100101227400115427125327225256325330153315252320215120129220331207131401135322230122426);
  (0x575b, 0x225426435331230125227327120320330332232325315252130217);
  (0x575c, 0x230330);
  (0x575d, 0x225425125230227142330252325130331232229);
  (0x575e, 0x426230225125330);
  (0x575f, 0x425125225252315230325);
  (0x5760, 0x452152215252125225325315232156);
  (0x5761, 0x225425230125227252325330320331232229130228142256);
  (0x5764, 0x130225230330232215125228227129);
  (0x5766, 0x125230200227100330152417327325130331229232329332129101115162362132315320117262131);
  (0x5768, 0x452435125325230);
  (0x5769, 0x125);
  (0x576a, 0x452230225227330130327426229232129125);
  (0x576b, 0x413);
  (0x576d, 0x413);
  (0x576f, 0x225425125325252232);
  (0x5773, 0x413225);
  (0x5776, 0x459);
  (0x5777, 0x200325320362262125);
  (0x577b, 0x230330413);
  (0x577c, 0x413);
  (0x5782, 0x152452125252115227325225327315162320104);
  (0x5783, 0x125225);
  (0x5784, 0x152426125120325225227327);
  (0x5786, 0x413327);
  (0x578b, 0x225419204256125252325232238352227320330217327332356331);
  (0x578c, 0x413227);
  (0x5792, 0x225452252227125215152327325204232330331332315);
  (0x5793, 0x413327);
  (0x579b, 0x225452125325435227252);
  (0x57a0, 0x200220227426215327);
  (0x57a1, 0x413130);
  (0x57a2, 0x426225315215252227);
  (0x57a3, 0x225426227230330229130215327320220315232);
  (0x57a4, 0x413327);
  (0x57a6, 0x252452156225152125256325130129227331232330);
  (0x57a7, 0x435222422);
  (0x57a9, 0x325225413343);
  (0x57ab, 0x452225125152325129252130232132);
  (0x57ad, 0x413125327227);
  (0x57ae, 0x452252152362262200);
  (0x57b4, 0x413);
  (0x57b8, 0x426225);
  (0x57c2, 0x426225327230227125330);
  (0x57c3, 0x130127230417225129327227330315331132435231329131125229332325117122);
  (0x57cb, 0x152452252256315325115156100352125);
  (0x57ce, 0x125425230225142130227252330152117325317229104327112132238329242315215331232332131120220256228115129217320328);
  (0x57cf, 0x227413);
  (0x57d2, 0x413227);
  (0x57d4, 0x330230331413327227130325332);
  (0x57d5, 0x413227);
  (0x57d8, 0x425);
  (0x57d9, 0x426225);
  (0x57da, 0x225413227);
  (0x57dd, 0x413);
  (0x57df, 0x225230425227325220125327356142426229352);
  (0x57e0, 0x426225230327330125238);
  (0x57e4, 0x459);
  (0x57ed, 0x413);
  (0x57ef, 0x413);
  (0x57f4, 0x413);
  (0x57f8, 0x413);
  (0x57f9, 0x152156256227125327452330320235252332220325132230129127);
  (0x57fa, 0x125100426225132107227134325330327332331127229130120252230152129320232131143329117217317352315228256417);
  (0x57fd, 0x413);
  (0x5802, 0x225435227125230262315162252222115232327217320220325215231100200362330426207107242331129422229332228);
  (0x5806, 0x452152225222125252435156220115227425230352330130232);
  (0x5807, 0x225125);
  (0x580b, 0x413227);
  (0x5811, 0x225125220315325);
  (0x5815, 0x152452315227);
  (0x5819, 0x413);
  (0x581e, 0x413225);
  (0x5820, 0x413);
  (0x5821, 0x230426227225125229331327330232332325132);
  (0x5824, 0x225425125252142227327230232215229320130);
  (0x582a, 0x252452152315227130220330215320200125327454230332120);
  (0x5830, 0x426230227130225330132327232125);
  (0x5835, 0x152452252222127256215217325156125330320327);
  (0x5844, 0x413227);
  (0x584c, 0x252452152315256362262100125156200132325);
  (0x584d, 0x413227225230);
  (0x5851, 0x125225152426325332252227320232132215256315327331117129217454);
  (0x5854, 0x417225130327227127330129229125132230232332329325104304131331215231320);
  (0x5858, 0x225417230330130327125227426229142332129);
  (0x585e, 0x452252330225130327127227129142325125152256230229329332315200132331120117115131352217215210232);
  (0x5865, 0x413);
  (0x586b, 0x152452252125315227132104327325156215115120);
  (0x586c, 0x426227230327);
  (0x587e, 0x225125);
  (0x5880, 0x227225413);
  (0x5881, 0x452);
  (0x5883, 0x225142426125242256252220325227217215331315327352343112232117);
  (0x5885, 0x225459325330227304);
  (0x5889, 0x227327413228);
  (0x5892, 0x426252125227);
  (0x5893, 0x425125225252325217256215230);
  (0x5899, 0x225425125142252315227215325232115320220104132217230130);
  (0x589a, 0x413);
  (0x589e, 0x152125452252327227156315215325132130320230104317229120220256304);
  (0x589f, 0x225426327130);
  (0x58a8, 0x125130225425127252327227325129230320315330104162115215204131);
  (0x58a9, 0x452225125227362435327262230426229325);
  (0x58bc, 0x459);
  (0x58c1, 0x225125426242227142230215315435325252327222330232152304120104220320130132332115);
  (0x58c5, 0x413152);
  (0x58d1, 0x426225227325215327315252220);
  (0x58d5, 0x225125230332);
  (0x58e4, 0x225252230125325315215330332130);
  (0x58eb, 0x225125327426230227330127332325329222215331232252315220228120132229104129320130335115328);
  (0x58ec, 0x122125130);
  (0x58ee, 0x452200100152125330215327132227252315320325143101115120204220217201225352);
  (0x58f0, 0x125225222435207252315201152227320325215115204220327322120330232135235117228256331362262332156229422132);
  (0x58f3, 0x225425325125320132227232252215426131217331);
  (0x58f6, 0x225435426130227125252315330);
  (0x58f9, 0x422122227222327322);
  (0x5904, 0x152425225242207222252125238156107422220215320325327352315231232104356115120256322204317227362262304143135230235332331117);
  (0x5907, 0x252225256452325152200227125204156228331327220215315320162132232332107104115343);
  (0x590d, 0x152252100207407125406327156320227315256404325409104427131132253215225331120220200229143343304130332117352228454);
  (0x590f, 0x143127444225230227125243130330327331132332320228325252117329229256152232129131128120);
  (0x5914, 0x427227130125);
  (0x5915, 0x212125444243215225315330227331120343327220325130132115);
  (0x5916, 0x125412206242212112256200252152207320325225104217220204331215131142315130227156117230317352132245327120332243100232115129229307362);
  (0x5919, 0x125115);
  (0x591a, 0x422122222322138107125207220252152104129100330315130200320120327156230329127132307229162225343115227325215332124238228232262331362217204117103);
  (0x591c, 0x143243444225222125207252204152315215320220120115325227343127422104232327130129117156132);
  (0x591f, 0x252452200152100120327320227);
  (0x5924, 0x413143227152);
  (0x5925, 0x413);
  (0x5927, 0x125400200107122252138217130104331327330152132332204325115207315230127322320120101232225162117362156129227100131215143352231343304220256228142135317328329229112316262300356128307);
  (0x5929, 0x125243222435238130225327422132104315325127135235115252142152227207320120215232129262332143230100304131330331117220352322307328107110112228128231256122);
  (0x592a, 0x125407130327225325127227117129132100232332330142317331120329315352230228131115107217162362320152);
  (0x592b, 0x225125227327425229230332325329130252426315330232129320331215220115228120);
  (0x592d, 0x152454426215315227327100);
  (0x592e, 0x225117331454231325330152227327131229317304220230);
  (0x592f, 0x425152227125452256325);
  (0x5931, 0x152252225452125156100315256215320352115325200220262362327229120132);
  (0x5934, 0x225425252125222212242142325315320230100207204152115220227330104215307200256232112120327132143422352331322332107362229130343300);
  (0x5937, 0x426227330230225252327315232130215152120125331402);
  (0x5938, 0x152129452125252115315227327130325132220135156120);
  (0x5939, 0x452152125225104320315130120325227156115132204232);
  (0x593a, 0x252152452325315115215227320327256220307304156117130);
  (0x593c, 0x413);
  (0x5941, 0x413225);
  (0x5942, 0x413227215327);
  (0x5944, 0x315115215262162120320);
  (0x5947, 0x152227200125402100225327229132115215104315325400427230232130332320220329129252304330162256156228401);
  (0x5948, 0x207454315152327227307225331206200130215330129320230132125220252229);
  (0x5949, 0x452152252130227327125315129320156225115325120);
  (0x594b, 0x252152107200315325454115120220228320201227225327215132332125156256);
  (0x594e, 0x227327427125129130329328230);
  (0x594f, 0x452225252125325152227256204327215);
  (0x5951, 0x125130426200227327152225127329454325252229156104132129201330230);
  (0x5954, 0x452152252315227330162125320115229327132156131129232);
  (0x5955, 0x215315162262);
  (0x5956, 0x425225125232252156256152325227238332320120327217);
  (0x5957, 0x222435125225200152422204232252325238230120220156227215132327315115104352322);
  (0x5958, 0x227327413);
  (0x595a, 0x427127152227327);
  (0x5960, 0x152125454252327227256);
  (0x5962, 0x100125402152315227156200120);
  (0x5965, 0x417127130132125117129327227229331200329330332232131317100230325217225115);
  (0x5973, 0x125225404325132227315220320215327127117331120104317152115330130343352204228232230332);
  (0x5974, 0x125225426325120152227229327156330115129);
  (0x5976, 0x125225425325252327227232320120220256130);
  (0x5978, 0x125225400252152100215315325426320);
  (0x5979, 0x438138);
  (0x597d, 0x400200207252152125107100122262225260220120300315162325320115130227362132322215327110217331332256228124352);
  (0x5981, 0x225);
  (0x5982, 0x452106138252143152320315115206327125120107227306200238130162127300343215225220228352325100230132);
  (0x5983, 0x225227125328325327228232);
  (0x5984, 0x152407315200125204225115156320);
  (0x5986, 0x252325426225315125454152327227256204320332);
  (0x5987, 0x225125426417227325117120332115331215217315327320343);
  (0x5988, 0x225425125227320325327130215315120129);
  (0x598a, 0x152143156117);
  (0x598d, 0x227427252327100200125);
  (0x5992, 0x252152125315115325156);
  (0x5993, 0x125225252);
  (0x5996, 0x125100225132115325152315362162129);
  (0x5997, 0x413327227);
  (0x5999, 0x200400215125127315225227327115130204220100320103129325203120);
  (0x599e, 0x125426227225325252327);
  (0x59a3, 0x215413);
  (0x59a4, 0x227225459327);
  (0x59a5, 0x400200152100101252227232362125332162325225262130);
  (0x59a8, 0x252152207238132);
  (0x59a9, 0x100115327);
  (0x59aa, 0x225413);
  (0x59ab, 0x413127227);
  (0x59ae, 0x225229125129227325327329232);
  (0x59af, 0x125);
  (0x59b2, 0x413227327);
  (0x59b9, 0x225125425227327325);
  (0x59bb, 0x125225426325227238252315115120215320220132229);
  (0x59be, 0x425225252215);
  (0x59c6, 0x227327459225229330230332325329129320232125331235127);
  (0x59ca, 0x125425327325227);
  (0x59cb, 0x252454107200152325125327320115315330232215256225207352230129227130329204220);
  (0x59d0, 0x225125227425327325215230);
  (0x59d1, 0x125225425325227327152107130330104115230409120320315);
  (0x59d2, 0x413227);
  (0x59d3, 0x225452125252204215228327230227325315220256);
  (0x59d4, 0x125225331152417325217231317227130100156320117107115454327315101252120426232131304332228);
  (0x59d7, 0x115315427227327);
  (0x59d8, 0x125152);
  (0x59da, 0x127227230422427122128325327330130222);
  (0x59dc, 0x127425225327227125130128115);
  (0x59dd, 0x413227327);
  (0x59e3, 0x162125);
  (0x59e5, 0x327227125225228328330130);
  (0x59e8, 0x125327425225227325220);
  (0x59ec, 0x427127227225327220228129128229);
  (0x59f9, 0x115);
  (0x59fb, 0x225125252325315327332);
  (0x59ff, 0x125225426315200215320227220327325232);
  (0x5a01, 0x156125225227230130426129427100330327252325152132232115215320127331315256131220329332120229228);
  (0x5a03, 0x426225125227132325327229131232331);
  (0x5a04, 0x127417130427330125225227352);
  (0x5a05, 0x227459229327);
  (0x5a06, 0x200459215);
  (0x5a07, 0x100452227252125400152327162115315225215325362120200);
  (0x5a08, 0x125327413);
  (0x5a09, 0x162362);
  (0x5a0c, 0x459225327227);
  (0x5a11, 0x262125130120320);
  (0x5a13, 0x120320115315107207227127327);
  (0x5a18, 0x225425125227327325252220320330329);
  (0x5a1c, 0x227459229327129232262200315362330230);
  (0x5a1f, 0x100228225227229328);
  (0x5a20, 0x252343256413);
  (0x5a23, 0x413227);
  (0x5a25, 0x225330320125227);
  (0x5a29, 0x252454325);
  (0x5a31, 0x156125454252225200227325327);
  (0x5a32, 0x225459320227327);
  (0x5a34, 0x100327);
  (0x5a36, 0x452252152156225215220);
  (0x5a3c, 0x125252225215256220325);
  (0x5a40, 0x100115);
  (0x5a46, 0x225125227426327325315129162115130228132332252230120220215);
  (0x5a49, 0x200100327409402107152262120201227162125);
  (0x5a4a, 0x125);
  (0x5a55, 0x227459327125);
  (0x5a5a, 0x252125426325225143117156256120315220152215104332132454);
  (0x5a62, 0x225125315);
  (0x5a67, 0x227413327);
  (0x5a6a, 0x200459227315);
  (0x5a74, 0x125426225227325252327229332117132);
  (0x5a75, 0x125225327);
  (0x5a76, 0x125225325327);
  (0x5a77, 0x227327459232215315262362229);
  (0x5a7a, 0x130125);
  (0x5a7f, 0x225426252215227);
  (0x5a92, 0x125225426325252220315215331152227);
  (0x5a9a, 0x200454327252125227203315215100152);
  (0x5a9b, 0x459227327229);
  (0x5aaa, 0x413227327);
  (0x5ab2, 0x152);
  (0x5ab3, 0x125225325426327227320);
  (0x5ab5, 0x413);
  (0x5ab8, 0x413327225);
  (0x5abe, 0x152252);
  (0x5ac1, 0x452252152225125115215320325);
  (0x5ac2, 0x125225426227325327);
  (0x5ac9, 0x152454115252315256);
  (0x5acc, 0x452125252152225200220227115327);
  (0x5ad2, 0x459225227);
  (0x5ad4, 0x227413225125327);
  (0x5ad6, 0x452152125320156);
  (0x5ad8, 0x413125);
  (0x5adc, 0x413);
  (0x5ae0, 0x413);
  (0x5ae1, 0x125104152);
  (0x5ae3, 0x228115104315162327120);
  (0x5ae6, 0x125120327);
  (0x5ae9, 0x400200125230130330104227327262162331362325217220);
  (0x5aeb, 0x413);
  (0x5af1, 0x413227327);
  (0x5b09, 0x152454115120227327215125156);
  (0x5b16, 0x413);
  (0x5b17, 0x152252156);
  (0x5b32, 0x413);
  (0x5b34, 0x413127327227);
  (0x5b37, 0x125225227327);
  (0x5b40, 0x225152125);
  (0x5b50, 0x225426227125325327222127220252320232230238315330215235322332352130243331229231143120207304115129356328317200329132128228);
  (0x5b51, 0x125115);
  (0x5b53, 0x225);
  (0x5b54, 0x127225425125252227427327128204325130315215120256220229129232330104115329332);
  (0x5b55, 0x252125152417143325256426225132343117454227327332);
  (0x5b57, 0x425225125325252232320220315356256115215327352227331332304330204207132128130);
  (0x5b58, 0x152252125452225156325327256227320315220215200117107343332304228120132128115);
  (0x5b59, 0x127427227225125327128325330132230215315130320220228329);
  (0x5b5a, 0x227454232129327331332320130330);
  (0x5b5b, 0x413227);
  (0x5b5c, 0x332330230232362262120320115315229125329343);
  (0x5b5d, 0x426327227125152130252200329225129132215115320328325315127220156330);
  (0x5b5f, 0x127417130327125227129132100325330329230143128331228115131229);
  (0x5b62, 0x125225232332325);
  (0x5b63, 0x125324243222225426127120327227204325220435422238320217252304132129427330329128229115156230328143);
  (0x5b64, 0x400125100152426115127162120315227252327130362104225330220320101117);
  (0x5b65, 0x413227);
  (0x5b66, 0x225125325452231152331252327220320332227256217200315229232120317352115215304104117330132130128129156228230328143);
  (0x5b69, 0x125225325332426327227352);
  (0x5b6a, 0x104125);
  (0x5b6c, 0x125);
  (0x5b70, 0x438120320152);
  (0x5b71, 0x100);
  (0x5b73, 0x152);
  (0x5b75, 0x152452143156125132);
  (0x5b7a, 0x225125315228129327115);
  (0x5b7d, 0x402225252125315132115);
  (0x5b81, 0x227230130330417127327107200100229232325128331125152217228225215115206332315132129329407317131106320252120);
  (0x5b83, 0x438138238225315);
  (0x5b84, 0x459225);
  (0x5b85, 0x225426125325227327315204229132130);
  (0x5b87, 0x125227225127327120427132232315331426332330142215129231328229);
  (0x5b88, 0x252452152225200125327256325227315100215115320120220156129330328127356);
  (0x5b89, 0x152452103230130127225227200100330232325125327252331132229215129332115315117162220362320120131143262135128156317222235231329101228217256328224);
  (0x5b8b, 0x127427243143227327125435128444130204129131325330120);
  (0x5b8c, 0x152101452100252125320127115327129362162315130120227132156);
  (0x5b8f, 0x125327100427227132417315200330232230332262220130120320328432331129228152);
  (0x5b93, 0x427127227327);
  (0x5b95, 0x413252320220129327);
  (0x5b97, 0x125327227222435127225229232204328422315252215130132330322129131325331228);
  (0x5b98, 0x125225425252127227327130220315325330152132120352230320115304129229331332156317);
  (0x5b99, 0x225325320129227413327332);
  (0x5b9a, 0x252207225200452325125152156107204256220320230327130227215330315104120203232129307304352332262331217328132);
  (0x5b9b, 0x227127152230427130232407327153129332325330100);
  (0x5b9c, 0x454252200225130215327100152227127330320125315132325129220229230352228232);
  (0x5b9d, 0x127125425225227327132232130100325129229215315131330204252332220452230328304331115228317120);
  (0x5b9e, 0x152125107207225200252201400156320325362227215262100315162115120327332220104301232331132142204143307228256101131);
  (0x5ba0, 0x452152125252200256315227327215225115120);
  (0x5ba1, 0x152156252452225256100125317325327115330204217331227132230117);
  (0x5ba2, 0x125225426227252100325217152215327117229320162362200256220315331317232120332132330);
  (0x5ba3, 0x152156125127327427227130143331215317320117332315217329);
  (0x5ba4, 0x225425142125227232231327252325215315229217224331);
  (0x5ba5, 0x413252225227);
  (0x5ba6, 0x125427225127227327215152);
  (0x5baa, 0x125227327217325427256225332417129252131426320215328130329);
  (0x5bab, 0x125225427127142227426230252112327330129325352130229232120220329104315331);
  (0x5bb0, 0x125452252127227152229325327315143330132);
  (0x5bb3, 0x252152225200452325125220100256215315204332227115352217320356132);
  (0x5bb4, 0x225125426252152427227327230320229);
  (0x5bb5, 0x225444343227125243315152115327);
  (0x5bb6, 0x225435125238222422142252327220325331117330230315228320227332207120304232115132152127215135235204100256317338104310352200129130322328229329);
  (0x5bb8, 0x227413327332);
  (0x5bb9, 0x225100252125452320152325227315127200256327307215262115220230130129330232362156229132317104352332);
  (0x5bbd, 0x400100125252152227225327156115217162130362120215256104315320220132331);
  (0x5bbe, 0x230125225425227327325127130330229252215331329131315256332129320115427220132120);
  (0x5bbf, 0x125252452127225130435152227220325327215330230256315);
  (0x5bc2, 0x100252200402162203215262227315152325120327);
  (0x5bc4, 0x452152327125156252325115127256227130);
  (0x5bc5, 0x423227328327222320143322115125243);
  (0x5bc6, 0x125200101225400100152325201227130252327230162362256315229120330204215156132129127320331304131329104332115352232);
  (0x5bc7, 0x225427127426229227327215315125);
  (0x5bcc, 0x200225125400152100127330327227232252315130132115325220129131320229156120128230332215331328352104356228329);
  (0x5bd0, 0x454315252215);
  (0x5bd2, 0x125100402225400200152203204127252315427227327325143256215130243342220120320115132332);
  (0x5bd3, 0x125225454152252325120115327227304);
  (0x5bdd, 0x125426454225252120215315227115);
  (0x5bde, 0x200215402227413);
  (0x5bdf, 0x252325225417152256204227331130125330454327315115317129220332230320229156120);
  (0x5be1, 0x125402315225115252320152325120100327204215220317);
  (0x5be4, 0x152);
  (0x5be5, 0x162262115315427200100327);
  (0x5be8, 0x426225227230125330327229232215331325332220);
  (0x5bee, 0x413230229);
  (0x5bf0, 0x125215225220228327);
  (0x5bf8, 0x225222435422315115125120200235320325220327252152215);
  (0x5bf9, 0x434134207152125252156222234325107120320100112200422142215225306115220315304101132312322352327131256331122104332130227);
  (0x5bfa, 0x426230125227225142327232238130229330129);
  (0x5bfb, 0x152452252127100315320227115120327156125130215);
  (0x5bfc, 0x225152125325252256452204217227156417320215327220331304332104);
  (0x5bff, 0x125225227127327427130230426200325252315215115330454232204331320156);
  (0x5c01, 0x435252125100152127222120230330225227325156304327256320143315130115422132215207117331220129204332);
  (0x5c04, 0x252125325452156152225256220232320204332227130331215327352304315342120131132129);
  (0x5c06, 0x407125225207143107325327315115215152227252220320130104129330);
  (0x5c09, 0x225227127427327130125);
  (0x5c0a, 0x152435125222252100225327227325315256422215156115320120220129);
  (0x5c0f, 0x125400127327225204200152317252325207104107162362101320217262315115130304132129229120220227143352122100322335328331156117215330329128231230131332);
  (0x5c11, 0x400252238207222125122327325152200100220120322215225320127107130227115117315331132129131104330317217124128229162362);
  (0x5c14, 0x227330327230329427229332127325232207225331129231106328315335215461135320115125343100252130138);
  (0x5c15, 0x130332330);
  (0x5c16, 0x400100225125152325104252200130220227327120204320115300315304156217230330);
  (0x5c18, 0x225426125315115227252325215152256327232220320332);
  (0x5c1a, 0x407107225125152127327227200252106320229130315100115332129330128325352120110132215);
  (0x5c1c, 0x459);
  (0x5c1d, 0x152452207252156315327125227320120115);
  (0x5c24, 0x107407127327225227129130125315215132252128325320229117330329);
  (0x5c25, 0x152);
  (0x5c27, 0x427227327125130330129225215329229);
  (0x5c2c, 0x200459215203);
  (0x5c31, 0x407107152207225320252106315306215125128307115325227120220327156132);
  (0x5c34, 0x100315103);
  (0x5c38, 0x125426225152252227315325115215120132332);
  (0x5c39, 0x127427227225327232130128);
  (0x5c3a, 0x125222225435227215235422325315220304320252115352332330);
  (0x5c3b, 0x413);
  (0x5c3c, 0x227330327417130127229325230125225332129232331329132131320117220);
  (0x5c3d, 0x106452107252207152315112215120115200320220227327225262204100);
  (0x5c3e, 0x425125225325215435252230222152229130327112243227315352422115330220426129256132);
  (0x5c3f, 0x425325125252225452152332227315117);
  (0x5c40, 0x225125425231217152238252222325227100422331117215220304115232104317315320330132);
  (0x5c41, 0x125425252225327115227320325315352);
  (0x5c42, 0x225435222125204212422304325135235320220115252322162227122207217132362262327315120232352152200);
  (0x5c45, 0x125452252327152225107127328325227120130315115229117156135230217332256215129220320330232331204);
  (0x5c48, 0x252125152127452315115215256225200327227130100325220);
  (0x5c49, 0x225304125332);
  (0x5c4a, 0x222238107422217204435332252152331125225215320142);
  (0x5c4b, 0x225125142425252230232132315325327330227329215331130);
  (0x5c4e, 0x425252225125325);
  (0x5c4f, 0x125426225152227130327132330229252315115230232320120);
  (0x5c50, 0x225413);
  (0x5c51, 0x225425325252315426232200215);
  (0x5c55, 0x256252152320325454125217231225156227331327127232215220200330426104332128362262328117132352);
  (0x5c59, 0x413);
  (0x5c5e, 0x452225152252125256325204220332227330320100327331215304217156);
  (0x5c60, 0x156152125452127325227327225332215232315330229130);
  (0x5c61, 0x407107207115120320);
  (0x5c63, 0x413225220);
  (0x5c65, 0x152125227454104225426327315320220156215325115);
  (0x5c66, 0x413);
  (0x5c6f, 0x452152125230227130327225330252426315156);
  (0x5c71, 0x125230425130225227330142127252325327315129332215229320256232331132115131120112220152228328329117231217342);
  (0x5c79, 0x227152454315327320107);
  (0x5c7a, 0x413327);
  (0x5c7f, 0x225426227230330327);
  (0x5c81, 0x422222225435125143256325252243315227320220115215352120327132235);
  (0x5c82, 0x407152107115106227327125328);
  (0x5c88, 0x413);
  (0x5c8c, 0x115315162362);
  (0x5c8d, 0x413);
  (0x5c90, 0x130426227327229129328);
  (0x5c91, 0x127227427327128100130);
  (0x5c94, 0x452125152330225252204130320342352230227);
  (0x5c96, 0x200315459);
  (0x5c97, 0x425125325230227252225256327330130142320229317120331220);
  (0x5c98, 0x227413130230);
  (0x5c99, 0x413327);
  (0x5c9a, 0x227427130327230229225);
  (0x5c9b, 0x230225425125142227325229330331327232217332228130127129315329);
  (0x5c9c, 0x413);
  (0x5ca2, 0x413327129227);
  (0x5ca3, 0x413130);
  (0x5ca9, 0x225125227427230327426330232130252325129220152115315229331328);
  (0x5cab, 0x413130227327132);
  (0x5cac, 0x125);
  (0x5cad, 0x230425225227229125325330327215142130332220232131217252426331);
  (0x5cb1, 0x228130129125328230330);
  (0x5cb3, 0x127227125425225130230327330131426129229232215132);
  (0x5cb5, 0x413227);
  (0x5cb7, 0x130413227327132);
  (0x5cb8, 0x225242212425142325125252227256327315229230200330215331127220328162232228);
  (0x5cbd, 0x413227);
  (0x5cbf, 0x115107);
  (0x5cc1, 0x413227225327);
  (0x5cc4, 0x413227130);
  (0x5ccb, 0x459262220215227);
  (0x5cd2, 0x413330230227);
  (0x5cd9, 0x252454227330230327);
  (0x5ce1, 0x225230125417227332325331330130327320426);
  (0x5ce4, 0x227413327);
  (0x5ce5, 0x162227427327315115);
  (0x5ce6, 0x225413315227327320);
  (0x5ce8, 0x130262125115330229);
  (0x5cea, 0x413227330327230129229);
  (0x5ced, 0x125200402315100227215262220327);
  (0x5cf0, 0x225227125427230325435222330232327132229115315217252422426332130228220);
  (0x5cfb, 0x200402315227262203327100125320152325330232);
  (0x5d02, 0x413130);
  (0x5d03, 0x413330230327227);
  (0x5d06, 0x130413);
  (0x5d07, 0x129152327427252100130227115132454125320143131256315402);
  (0x5d0e, 0x100230330115229327227);
  (0x5d14, 0x127427327128227);
  (0x5d16, 0x426225125227315230327142130152232325330);
  (0x5d1b, 0x152200);
  (0x5d1e, 0x413);
  (0x5d24, 0x413115);
  (0x5d26, 0x459125);
  (0x5d29, 0x152452315252225125325327156215);
  (0x5d2d, 0x104115401362262152227);
  (0x5d2e, 0x413230332);
  (0x5d34, 0x452230227327);
  (0x5d3d, 0x125325225);
  (0x5d47, 0x127427132327227);
  (0x5d4a, 0x413130129);
  (0x5d4b, 0x413225325227327);
  (0x5d4c, 0x452252152325227125132156);
  (0x5d58, 0x262227459215315327);
  (0x5d5b, 0x413330327);
  (0x5d5d, 0x413230227);
  (0x5d69, 0x130413227327332125228129);
  (0x5d6b, 0x459225);
  (0x5d6c, 0x413227330);
  (0x5d6f, 0x459162);
  (0x5d74, 0x413);
  (0x5d82, 0x413225215227);
  (0x5d99, 0x162320315);
  (0x5d9d, 0x413);
  (0x5db7, 0x413227330);
  (0x5dc5, 0x125225426227);
  (0x5dcd, 0x227427327162262362107130115127228);
  (0x5ddd, 0x230225417330227130331127229327125232132117332325115220129215343207228315);
  (0x5dde, 0x230425330227225125331327238232229325332104217315);
  (0x5de1, 0x125152435156454252227120327132332317228256315);
  (0x5de2, 0x225425127130125252227452327320325232132315330331215304);
  (0x5de5, 0x125156225256325252425117331320120217227100332132232220104317315215207130152304327330231352115103200362162228131127229);
  (0x5de6, 0x122412127125112322115142128130117327320330252230204120227104129229152315107132331100);
  (0x5de7, 0x225200127400100207152125227401315115327215325252320328129201156);
  (0x5de8, 0x100125104127402426200327132315227325156130152115129332131304120);
  (0x5de9, 0x152127130227427125228327);
  (0x5deb, 0x125427127130225426215327315330227115);
  (0x5dee, 0x125400225120252200107152315320227115325156220215256132100129);
  (0x5def, 0x125413227);
  (0x5df1, 0x238438125215225315227325332220252122320138327115132);
  (0x5df2, 0x407107152207260252129200320215220315238325143156125227327245225332);
  (0x5df3, 0x423222227229327322143);
  (0x5df4, 0x130225127417330327325129125230227152329262362132332229252117331131120207307200232320315352215220233235104204304162);
  (0x5df7, 0x426225125215142152227315230325220130232327320330);
  (0x5dfd, 0x413327227130);
  (0x5dfe, 0x225426327227320115325104315125215132120);
  (0x5e01, 0x225320425331325125252356217220227256232327127);
  (0x5e02, 0x125225252230425142217325331152238352330104320117120327204215332227315130304229356220115122317135132256322129127);
  (0x5e03, 0x252125127225425152330325130227327129230132329229215232304120315320156331256220117131452104115332);
  (0x5e05, 0x225227400127325252327427100125454232426);
  (0x5e06, 0x227425125232225315327252325228220);
  (0x5e08, 0x225426125127227327252152325331230315215217231117330332320220104115317343304156238232256129120143);
  (0x5e0c, 0x152130327127330417227125129452132332229232131100329120156115331320);
  (0x5e0f, 0x125);
  (0x5e10, 0x435125426225252222215132325);
  (0x5e11, 0x413225);
  (0x5e14, 0x413225215);
  (0x5e15, 0x127426225327130227129329330332229132230232);
  (0x5e16, 0x435225125426200227222252315362262325422);
  (0x5e18, 0x225125435426325315220227252232);
  (0x5e19, 0x435320225327);
  (0x5e1a, 0x225426325315);
  (0x5e1b, 0x426225227125327252215);
  (0x5e1c, 0x225215426315435252227327);
  (0x5e1d, 0x225125227417229252325426327127330332331232115129215320130217315);
  (0x5e26, 0x452152225252325125304315227320107232256132327204229215207217156100332130331307);
  (0x5e27, 0x435225222227422327);
  (0x5e2d, 0x225252125435325222152320127422315115220227215331207107327330129128);
  (0x5e2e, 0x152452125222225224217252227325320120156330327317232422);
  (0x5e37, 0x125426315325227225327);
  (0x5e38, 0x207200407125100107204152104127130325331243120117215252227225327156356304315320220229230262362128132352332129317256162330115);
  (0x5e3b, 0x413227);
  (0x5e3c, 0x315204320);
  (0x5e3d, 0x225125425252325426320232327352330);
  (0x5e42, 0x425125227225);
  (0x5e44, 0x215413225325);
  (0x5e45, 0x225207125222435307217204422238115215320327);
  (0x5e4c, 0x125230330);
  (0x5e54, 0x225125);
  (0x5e55, 0x225435125252222325142422204227425130327317115320);
  (0x5e5b, 0x225);
  (0x5e5e, 0x413);
  (0x5e61, 0x426225107327120227);
  (0x5e62, 0x435222225422362227262);
  (0x5e72, 0x452125152100225222107252322325330127162230362227220117320327315156200132215120115229217232130317262143329256332204228);
  (0x5e73, 0x100225125135452227330143152322230127200325252130327122115315232204162332132215156320120362262107131229228104220331129117352217101328329317304128);
  (0x5e74, 0x422222243435125143225238207100325117320343152104252227304235315217352120331135112220215122115127162232329228230356130330332327204224322212317132324256);
  (0x5e76, 0x406152106252107125207156315120130325115320225327256317104227);
  (0x5e78, 0x100225107200127426152252454125227115207201327120409215315256325130320);
  (0x5e7a, 0x427327227225315);
  (0x5e7b, 0x125225454152252127200315215325204320426227220132327332);
  (0x5e7c, 0x125207402143100426225127325327217130215227220120320104117200315252317115);
  (0x5e7d, 0x125100426402262152162327200362227454325215156103329252);
  (0x5e7f, 0x130100125400104252132127156327232131227152217117200332315330331107120320215129417325228115143225328229231230317);
  (0x5e80, 0x413);
  (0x5e84, 0x227125127225427230100327130200330128426325232315252238329331332228402220229120);
  (0x5e86, 0x230454227243327152225330343125331252332130132232215228325229156127231129128120131);
  (0x5e87, 0x454152252327225125227325332);
  (0x5e8a, 0x225125425252256232222325315320132332422);
  (0x5e8b, 0x413);
  (0x5e8f, 0x225125425200220252325320315352256227215327107304228332);
  (0x5e90, 0x130426225227125215230330132327252115320131);
  (0x5e91, 0x426225);
  (0x5e93, 0x125225425127129130227232330327325252230329217220229331152332135131132);
  (0x5e94, 0x152452252256156225325125220315327127207115320215227132130104230120232352228128332328330);
  (0x5e95, 0x412243207225201125112252242325220215342130330230227315329204229120320256332132232327356362262);
  (0x5e96, 0x426215125129115);
  (0x5e97, 0x225425125230252330238232231325130304332327229);
  (0x5e99, 0x425225125230227130327352330325);
  (0x5e9a, 0x227327427122229132125325220232252332322129);
  (0x5e9c, 0x225231426427227417220325125230327130330331204129315317215229117332);
  (0x5e9e, 0x100127225427327115129227330130331125132329128);
  (0x5e9f, 0x452152125252256325215200327104156225320315115402329117);
  (0x5ea0, 0x413227125);
  (0x5ea5, 0x413227327);
  (0x5ea6, 0x225224207230435200222330325152220422252332256125227215204331315352327232156320115243229235217356120322);
  (0x5ea7, 0x222435225125422252232227152325200304115220330332215132327320127);
  (0x5ead, 0x225227125426325252230327315152215220207320330231242304232104352112217328);
  (0x5eb3, 0x413);
  (0x5eb5, 0x426227225327230125);
  (0x5eb6, 0x125200106225104325327);
  (0x5eb7, 0x200127125227417327225230427152130132232128330325100331220332129131156115229315362262143329);
  (0x5eb8, 0x100200330225320207125315229228162115152362325252327);
  (0x5eb9, 0x435427127);
  (0x5ebe, 0x127427330327227);
  (0x5ec9, 0x402100200125229152127227220327225315329120320330252130115215331);
  (0x5eca, 0x225426125130227230);
  (0x5ed1, 0x227413);
  (0x5ed2, 0x413);
  (0x5ed3, 0x225127152262200156330);
  (0x5ed6, 0x127427327329120227330129);
  (0x5edb, 0x225413);
  (0x5ee8, 0x413);
  (0x5eea, 0x413225227327);
  (0x5ef6, 0x152227252130327417127125225129454132315115131320325330156230328200);
  (0x5ef7, 0x225327413227230125325320331330229129127231);
  (0x5efa, 0x152125156252452200327230117320325132217131227331225330130129332143127232328204104128115229228317256120315220343);
  (0x5eff, 0x122422322222);
  (0x5f00, 0x152252452125201130327132156100222315120320331225422325115227215330220129230332104135112352143304131217107228200232117229362162329145);
  (0x5f01, 0x413227225);
  (0x5f02, 0x125225100454200107252320325104115215227152315352262327220120132232156256402304332129);
  (0x5f03, 0x252454325327152215315227256125115120320);
  (0x5f04, 0x452252152125315115225230256327330130320);
  (0x5f08, 0x252256454325125227327);
  (0x5f0a, 0x426125225215252256325220);
  (0x5f0b, 0x327426252130125227330);
  (0x5f0f, 0x225419201204426220232327227200320125325352238152335207229332356331217315);
  (0x5f11, 0x454152);
  (0x5f13, 0x452125127425225227232252315215327325152220204230130);
  (0x5f15, 0x152452252125325227115225256120327320117332156315215132232);
  (0x5f17, 0x127409129327130227329232304229131330320315325132235100332);
  (0x5f18, 0x127227327427152143125200132328);
  (0x5f1b, 0x200454256125100227228220215);
  (0x5f1f, 0x225125425227325220327215217315331320);
  (0x5f20, 0x127435225222252200152128130227422315327325132115125262256230362215220238100320204304129330332);
  (0x5f25, 0x152125407325402327225320227120454115132315130330129228);
  (0x5f26, 0x425225325125227252315127115215327);
  (0x5f27, 0x125425225325332104320);
  (0x5f29, 0x426315125227325225);
  (0x5f2a, 0x413);
  (0x5f2d, 0x427252);
  (0x5f2f, 0x152452252125225362162425315352325400220320256262215227100);
  (0x5f31, 0x400200252125225152220201100320325262315215115104227317327332);
  (0x5f39, 0x225252125452152325220156115227256215315120352332320317217);
  (0x5f3a, 0x252400100152125200227225156120107127315320325228204104115215231327132229232217220362262332238230330304131328201117);
  (0x5f3c, 0x227413327328252215228128);
  (0x5f40, 0x425);
  (0x5f52, 0x452152252156125315215325127115225207227120220327230130129320330132331256);
  (0x5f53, 0x143434107152252200207142125352112225315234134115320206215130220233156362262330332325329229327227120133230333300312343);
  (0x5f55, 0x252225452152125325227327256232156332320217315352331215);
  (0x5f56, 0x413);
  (0x5f57, 0x125325327);
  (0x5f58, 0x413227);
  (0x5f5d, 0x417132330227327130125120);
  (0x5f62, 0x125152225426252204325320315120115307215330227230220232327256342104352332200);
  (0x5f64, 0x228262362125);
  (0x5f66, 0x413327227330128225332229);
  (0x5f69, 0x125225426200104215227327204315252325232256320220120132152362129117330262332304115);
  (0x5f6a, 0x227435327115100152228104);
  (0x5f6c, 0x315115228232215130);
  (0x5f6d, 0x127427130227422327129228232229128100);
  (0x5f70, 0x252402130152215227327325200220);
  (0x5f71, 0x156225125425325252104315227215256331152320327115426217120220454352330129332343117);
  (0x5f73, 0x459125);
  (0x5f77, 0x152);
  (0x5f79, 0x225426252204232256325152238125227327320215129230330231);
  (0x5f7b, 0x101252454330200227107315115327162331125329120156229362);
  (0x5f7c, 0x138438330129315125130143215320327329115120332227);
  (0x5f80, 0x434252207107143152243256156125215315153352227220320327104);
  (0x5f81, 0x225152252452227125156325327315117230256232217215330331332228220132);
  (0x5f82, 0x413);
  (0x5f84, 0x225125426107204315227320220325215252327331130132);
  (0x5f85, 0x252452125215152325315320225107156115327256227120220332);
  (0x5f87, 0x454152115315120);
  (0x5f88, 0x407122100107120322125327);
  (0x5f89, 0x252459);
  (0x5f8a, 0x252454459);
  (0x5f8b, 0x225125427207327330325227426220252230331215454256232352320152204315332117);
  (0x5f8c, 0x427227);
  (0x5f90, 0x127427130227207327107128228125162129120320230131152315330262132);
  (0x5f92, 0x225407125320227327107152215115252229330104329315325120130220206);
  (0x5f95, 0x252459327);
  (0x5f97, 0x446252152207307352325100200225320327330315125220215227300115229230130232120203329204132228131332256331129156);
  (0x5f98, 0x152);
  (0x5f99, 0x454225252315);
  (0x5f9c, 0x152);
  (0x5fa1, 0x454252125325327152227104129130156115332);
  (0x5fa8, 0x252459);
  (0x5faa, 0x156252454325315120115227152125107130327104215230330132304);
  (0x5fad, 0x125320120);
  (0x5fae, 0x125207156100407107400200152104227325120115327252122215135117262362162203220256315130204402232131320322222332132335330230);
  (0x5fb5, 0x227413327);
  (0x5fb7, 0x130227327417225229127330230125117129132243232131329215252332325115200331315217228328335104320220231128352120);
  (0x5fbc, 0x413);
  (0x5fbd, 0x230330125225417327227426232331130329325328);
  (0x5fc3, 0x225125142252425200315152325115207215100201327220320227231242204127120104238232230330132256229156116117304352317331362262332328300228356);
  (0x5fc5, 0x107207407100152120125320315327352156227325115215332330238132129);
  (0x5fc6, 0x252225227325452315327152127120156220125454332);
  (0x5fcc, 0x452225152252315215325220227156143256125);
  (0x5fcd, 0x152452252200115315320215227107125220325327132156328);
  (0x5fcf, 0x152156125252);
  (0x5fd0, 0x115100);
  (0x5fd1, 0x315200459);
  (0x5fd2, 0x407327227262362);
  (0x5fd6, 0x252152);
  (0x5fd7, 0x225425327227125230325252331215115330127315143152332352220328130129128232120229228132304);
  (0x5fd8, 0x452152252325315215115200104320125107256220120227);
  (0x5fd9, 0x452207252201200100152362262227215315107225162220320115120327125325307);
  (0x5fdd, 0x454227327);
  (0x5fe0, 0x227427125327100152252115454315200104120225130330129320228230328127);
  (0x5fe1, 0x215315225459);
  (0x5fe4, 0x402152120327252);
  (0x5fe7, 0x252452100152156125315225115215232227220426200325320103);
  (0x5fea, 0x215200459);
  (0x5feb, 0x400207107252200100125262162215220132320315362152156225115325331227204217117201327120300104103130);
  (0x5fed, 0x413227);
  (0x5fee, 0x413);
  (0x5ff1, 0x225426227200215327);
  (0x5ff5, 0x225452252325152125315115227327330127130352100332220320256104304215331);
  (0x5ff8, 0x100115);
  (0x5ffb, 0x130427127227327330);
  (0x5ffd, 0x107407152320252162207362120327227315262322133256132200115);
  (0x5ffe, 0x215413315);
  (0x5fff, 0x100115315125);
  (0x6000, 0x152452142125227252127327225256130315215320129120156115143220230207200330307228329132262328332);
  (0x6001, 0x225125425252325220320215315426227352256200327332);
  (0x6002, 0x454152227);
  (0x6004, 0x452152);
  (0x6005, 0x200100107115307);
  (0x6006, 0x200413203);
  (0x600a, 0x413);
  (0x600d, 0x413);
  (0x600e, 0x138438320106120327);
  (0x600f, 0x262162115315362);
  (0x6012, 0x252454125200115152130227315215225320132162327330120156325);
  (0x6014, 0x452152252125227362262);
  (0x6015, 0x452252207200206100320315215220152125217);
  (0x6016, 0x200325454215220327227);
  (0x6019, 0x413115);
  (0x601b, 0x413227);
  (0x601c, 0x252152200454362215352325115156227327320256315);
  (0x601d, 0x125225152327227252452325315200220127215320132115229120130156129256332232330230328228329);
  (0x6020, 0x402152200125100320227);
  (0x6021, 0x454227100327132125215152115162129130131);
  (0x6025, 0x452200107125152100162256215115104315252320362101120156225204317325262220132332117331);
  (0x6026, 0x233133120162433);
  (0x6027, 0x225125425204325207320227252352315220256156100232200426327356217215152332343120115);
  (0x6028, 0x252452125225152115107200215315320456156325220);
  (0x6029, 0x200459315);
  (0x602a, 0x252452400125200225207215100107315152120220227320162362115232307352262130);
  (0x602b, 0x413);
  (0x602f, 0x400200100162262125252203152362);
  (0x6035, 0x454252115);
  (0x603b, 0x125404107152106325331227104225252327120117204332207320132256217330220131317130142156228);
  (0x603c, 0x413252);
  (0x603f, 0x413227);
  (0x6041, 0x413145);
  (0x6042, 0x227413327);
  (0x6043, 0x454252315115227215);
  (0x604b, 0x252152452125352256115315320227225325332327456);
  (0x604d, 0x454100115107152315362162101227200327);
  (0x6050, 0x107407100103200125252315215152225227132320327);
  (0x6052, 0x125427132227117262103252325332130327426402215100320230101129131232115328228);
  (0x6055, 0x454427252152227327120256);
  (0x6059, 0x215262220125225);
  (0x605a, 0x413227);
  (0x6062, 0x152402125100143227327320215315104220);
  (0x6063, 0x107152315115);
  (0x6064, 0x252325256125);
  (0x6067, 0x413);
  (0x6068, 0x452252107225200256127215115152320332125315327325220);
  (0x6069, 0x227327252427125426127225417229329315129130220152325343100156230331132115232330162362320);
  (0x606a, 0x152228120);
  (0x606b, 0x156);
  (0x606c, 0x100228115315162200);
  (0x606d, 0x100402152227315362162327200125215130332252120115320156228);
  (0x606f, 0x225252425325204227125352215315356220115152332331200256232320343327130243231426454);
  (0x6070, 0x107407207100152306106115130327227330229230127129);
  (0x6073, 0x152200100362262125300);
  (0x6076, 0x400125100152200252225315104120162115107215227325320327256220362103232203317);
  (0x6078, 0x200413152);
  (0x6079, 0x262162362);
  (0x607a, 0x227413327328129);
  (0x607b, 0x115402215200152327);
  (0x607c, 0x200452152100252203115220256);
  (0x607d, 0x127427227327128);
  (0x607f, 0x252459227327);
  (0x6083, 0x413);
  (0x6084, 0x107362207162262120125325327227);
  (0x6089, 0x252107401454130327227131120132330);
  (0x608c, 0x413227327);
  (0x608d, 0x200107203125215100115);
  (0x6092, 0x162200262);
  (0x6094, 0x252454152115315320325220215125256156327227);
  (0x6096, 0x454125252352215152100);
  (0x609a, 0x315413100200227);
  (0x609b, 0x215413);
  (0x609d, 0x227413);
  (0x609f, 0x452252225215327152125229227200256331220330454325230);
  (0x60a0, 0x100262162362252452115101103227152120327320325225);
  (0x60a3, 0x125452225152215252115217315317325320216220);
  (0x60a6, 0x200454227100315252132327130402325203);
  (0x60a8, 0x438120138140320227);
  (0x60ab, 0x402227);
  (0x60ac, 0x452152125100115252320315227325215132327156);
  (0x60ad, 0x100413);
  (0x60af, 0x252413256262315227327);
  (0x60b1, 0x315454100);
  (0x60b2, 0x100125200403454103115152225215315327402120220162101362252320227);
  (0x60b4, 0x200413220);
  (0x60b8, 0x252215156225);
  (0x60bb, 0x107207307);
  (0x60bc, 0x325252152454327125256156);
  (0x60c5, 0x125225425252200315325152207115215120320256220227100238143327331343332352132203317);
  (0x60c6, 0x100);
  (0x60ca, 0x100452152252200315115215125320227220101120156143327325);
  (0x60cb, 0x100252);
  (0x60d1, 0x252200256452315325220320152225227454327115);
  (0x60d5, 0x252325413227215327315);
  (0x60d8, 0x200162115);
  (0x60da, 0x200215362262459201);
  (0x60dc, 0x252454200152127227315215327220320115256100156);
  (0x60dd, 0x100459);
  (0x60df, 0x407152104206107406327227115315106252445);
  (0x60e0, 0x256127327130427200227252426325132152225320232230217129215131115315454229330);
  (0x60e6, 0x152452227);
  (0x60e7, 0x203452252200152325215125327100);
  (0x60e8, 0x100125400200152162115362262315156401215227);
  (0x60e9, 0x152252454156125225315115120325);
  (0x60eb, 0x252200320413100325);
  (0x60ec, 0x100);
  (0x60ed, 0x100200402315215227);
  (0x60ee, 0x215252454);
  (0x60ef, 0x225125452352152325252107215315156320);
  (0x60f0, 0x125402200120132);
  (0x60f3, 0x452152225252320125256120325215107315115227331220352232327300156356200);
  (0x60f4, 0x115315162262362);
  (0x60f6, 0x100315200115162215262201362);
  (0x60f9, 0x452152252115120100315330230227327200320);
  (0x60fa, 0x315362262115120320215100162);
  (0x6100, 0x459);
  (0x6101, 0x452252200125115100315225327320215120227330220);
  (0x6106, 0x413225152);
  (0x6108, 0x407107252207152120320227228315327220325328);
  (0x6109, 0x100200);
  (0x610d, 0x413327);
  (0x610e, 0x413315203);
  (0x610f, 0x125252225426207152130100325200215315320201300330120220115227352307156331204417132332131327256232117304);
  (0x6115, 0x100200252);
  (0x611a, 0x227100452125152115225127215327120143200315220);
  (0x611f, 0x152125225454200252325100320120156115143204230315227132352330215220203232256332);
  (0x6120, 0x152125);
  (0x6123, 0x452152252362262162215);
  (0x6124, 0x152200100225456107315207115156252220454256325125426201120203);
  (0x6126, 0x413200);
  (0x6127, 0x200252454215100207352152125315320227101220327256);
  (0x612b, 0x413225227327);
  (0x613f, 0x452152252225125325215207315331352220227256217327115320204);
  (0x6148, 0x100129127402227125200327130315320229115332330232331);
  (0x614a, 0x413227);
  (0x614c, 0x400452101200203100315362162325201115262252152320225);
  (0x614e, 0x200100207215152400127227220327427315120225402228115401);
  (0x6151, 0x252454225256325152);
  (0x6155, 0x127252130427327330426152227220225454256120331332125230);
  (0x615d, 0x413);
  (0x6162, 0x107207400200104252125162220225152115132325320256304120315227362106143327);
  (0x6167, 0x127227225327426200129125320220330315100120132);
  (0x6168, 0x200252315201152107320426215402156225115120327300227);
  (0x6170, 0x252152200454227327125256156325215203);
  (0x6175, 0x413100);
  (0x6177, 0x100115101454315227220327);
  (0x618b, 0x452100120);
  (0x618e, 0x152454225200315215402327);
  (0x6194, 0x100320);
  (0x619d, 0x413);
  (0x61a7, 0x152320220);
  (0x61a8, 0x426100152200327125120362227162402);
  (0x61a9, 0x252454152256227);
  (0x61ac, 0x252152);
  (0x61b7, 0x413252227);
  (0x61be, 0x200225426252215402125220);
  (0x61c2, 0x452152100252200220320215315262227325);
  (0x61c8, 0x454200262100215320315252220);
  (0x61ca, 0x152156);
  (0x61cb, 0x413227327125132);
  (0x61d1, 0x200413225);
  (0x61d2, 0x400152125162100252200225215352315220327);
  (0x61d4, 0x413227);
  (0x61e6, 0x402101200125100327);
  (0x61f5, 0x452152120320362162227);
  (0x61ff, 0x413227327125);
  (0x6208, 0x127125327227427252129225330229315332329426215220132230130325320232222128235);
  (0x620a, 0x423125120325122132327332227232143);
  (0x620b, 0x459);
  (0x620c, 0x320222332325322143);
  (0x620d, 0x454152252204125325227225331327);
  (0x620e, 0x427127227125115327152315225215229252120);
  (0x620f, 0x125225425252152331325220215132352315320232217117343131156332227);
  (0x6210, 0x252152452125100228227222130320325127225315327332156229115256215422107204230232120328104220132143317352330117131200122300129322329128207124331);
  (0x6211, 0x438138125238320315225325252115132204215120207227327229);
  (0x6212, 0x225125452152256252325115215315156130220320343327100132227);
  (0x6215, 0x152156);
  (0x6216, 0x406106107206307207320227152125);
  (0x6217, 0x452200);
  (0x6218, 0x125252454225332156232256152325143217331127215320315204220227115229327162132200238228120117330317);
  (0x621a, 0x225127427325227200315327130252220128125);
  (0x621b, 0x130115325);
  (0x621f, 0x426225227325215315327);
  (0x6221, 0x454152227327);
  (0x6222, 0x427);
  (0x6224, 0x413);
  (0x6225, 0x452);
  (0x622a, 0x152452252222125315115107156325322207225332256435327);
  (0x622c, 0x227413327);
  (0x622e, 0x252256115315);
  (0x6233, 0x452152225125252352327);
  (0x6234, 0x452127252225315132330120327129227115128256152215325130320);
  (0x6237, 0x225435125222252325422215315230142238220117127330327132207227332130135235256232217229115);
  (0x623d, 0x452);
  (0x623e, 0x413200262);
  (0x623f, 0x125225117425252142325256127130330227152230132315327232217204220332156331131320);
  (0x6240, 0x445106225125104252152315217306231222320422325115230120238215107327232130227129342330229220);
  (0x6241, 0x400125104127162227120152327362325);
  (0x6243, 0x413);
  (0x6247, 0x435225125222452152425252422215315115327232325132130);
  (0x6248, 0x127200125427215330329130227327);
  (0x6249, 0x225125);
  (0x624b, 0x125425225252142152207222325315104422332115200320215204220132100362352120107227322327256304117231330229300232130);
  (0x624d, 0x407225243227207152125315327252215107115200330220325120256127228320130329328);
  (0x624e, 0x252452100152130327330129225227156315229127162362230215125329325132256115);
  (0x6251, 0x452152133225252125115325120362262162320315256327100);
  (0x6252, 0x452152125315330227225156);
  (0x6253, 0x152452252125315120225222115320156331215234325232220132352227117327256230422207332107130330);
  (0x6254, 0x452152);
  (0x6258, 0x252452225152325127125227327129229330256352230332329130156204331315132232217120117);
  (0x625b, 0x452152120);
  (0x6263, 0x152452225252125215220115227325232320156327);
  (0x6266, 0x152125);
  (0x6267, 0x152156452125252100107325200227315327115120331225117132320330);
  (0x6269, 0x152454227125156317325120104132256);
  (0x626a, 0x115315);
  (0x626b, 0x152452252125100315156120352320115325332232117256);
  (0x626c, 0x252130454152315227215125132127115200327230330229256329225325320156107452129120228352232362262);
  (0x626d, 0x152452125200120362262252100162115315320132);
  (0x626e, 0x252152452215125320);
  (0x626f, 0x452252152320220215315156);
  (0x6270, 0x252452152156256325220332125215227315327);
  (0x6273, 0x452125152225456);
  (0x6276, 0x452152252130127125156227325115204315327162107120331232117132332131320);
  (0x6279, 0x222152435252125156207107322325422204320225120256122330117115);
  (0x627c, 0x152454100320101120156);
  (0x627e, 0x452152252125200320132120);
  (0x627f, 0x152252327125427325227156454127225130417215220115320132256232104100315120328304352332);
  (0x6280, 0x125225325232426331120117417304217231330315215317320332327152227220252352104);
  (0x6284, 0x452152252125325225204120227156256);
  (0x6289, 0x152156454);
  (0x628a, 0x434222152125225325320252352232422215220322343315327132332227120115);
  (0x6291, 0x152252454100125106115132156327120325256227332320);
  (0x6292, 0x152125156454315227);
  (0x6293, 0x152452252125320115220132120215156);
  (0x6295, 0x156125152452252217315331115117317132332325330230320231215327120100256);
  (0x6296, 0x452252152315115362262156227120327);
  (0x6297, 0x152452252156125132256325120117225131227320327315215104331232330332204);
  (0x6298, 0x152452125225200252422222256325156315127215352227104220327362262320130132115);
  (0x629a, 0x454152225252327130227256125330156115325132131331315);
  (0x629b, 0x452152125156115120);
  (0x629f, 0x452227);
  (0x62a0, 0x452100152120320);
  (0x62a1, 0x452227);
  (0x62a2, 0x152452100252125227315320120217325132130327156);
  (0x62a4, 0x252325125152452256225132156327227320330230332232215331);
  (0x62a5, 0x225125152425252238256232325156315231217331227320120215115220327130230132332);
  (0x62a8, 0x152);
  (0x62ab, 0x152452125252115315225120327132227330131);
  (0x62ac, 0x152452315125120252320325);
  (0x62b1, 0x452152252225100125115227315327120320304220130129);
  (0x62b5, 0x152156452252125207320225107204);
  (0x62b9, 0x452252152222125315215227320352);
  (0x62bb, 0x452);
  (0x62bc, 0x252452256152125325100327227225156);
  (0x62bd, 0x152452100125120156315132362162104232331143115107);
  (0x62bf, 0x452227125);
  (0x62c2, 0x452252143152115327125256227315);
  (0x62c4, 0x452152);
  (0x62c5, 0x152252156225452125222435325320115227220422315235);
  (0x62c6, 0x152452252125325156315332120352225117227327);
  (0x62c7, 0x325125);
  (0x62c8, 0x452152115315);
  (0x62c9, 0x452330152327229325127227130230129329125332225132252235117232331320120256315362262217222233322115304333131156162215200220101100);
  (0x62ca, 0x413);
  (0x62cc, 0x452252152325156256320225332);
  (0x62cd, 0x152452252125225325115315227320120220352331256327);
  (0x62ce, 0x452125227);
  (0x62d0, 0x125452152115142325227225320252327217220317);
  (0x62d2, 0x152454252120130115215320132327);
  (0x62d3, 0x152252452127125325227315320132327200232304);
  (0x62d4, 0x225452252152327200315227115215100320156325125232);
  (0x62d6, 0x452152125325217156320220132115100227162362252327322315230120122231);
  (0x62d7, 0x400125200252152100327);
  (0x62d8, 0x152454100252315125217332156);
  (0x62d9, 0x200402100215130227125252315);
  (0x62da, 0x152);
  (0x62db, 0x152125425156131117452127222352225115120315252227325217101327130320220132215330422256332);
  (0x62dc, 0x452230152252225330125325227327129130131343215229220315132127243256332);
  (0x62df, 0x452252152204107125256215325304332104352156);
  (0x62e2, 0x252452320227152107256);
  (0x62e3, 0x452252152315362262325327);
  (0x62e5, 0x152452252100315125227215327115120352156320217);
  (0x62e6, 0x152452252107125327132156232227);
  (0x62e7, 0x452152120320227);
  (0x62e8, 0x452152252115227325315125256107117132);
  (0x62e9, 0x252452325152220315256107327227115156125120225130132);
  (0x62ec, 0x252452125227325200332228315);
  (0x62ed, 0x454252115152);
  (0x62ee, 0x100125152);
  (0x62ef, 0x152227454327);
  (0x62f1, 0x452152125327130252325225227120232131104315);
  (0x62f3, 0x125225425222252315227215115452232152325320);
  (0x62f4, 0x452227125327225152);
  (0x62f6, 0x413252);
  (0x62f7, 0x454152125156352132);
  (0x62fc, 0x152452107252125120325315156115227225132327);
  (0x62fd, 0x452220227);
  (0x62fe, 0x252452152215120115315227124220422125327);
  (0x62ff, 0x452152330252125100120332325227315331327225230256320130229115127129228);
  (0x6301, 0x252152153452125325227100315200225327256115143304215120320);
  (0x6302, 0x452152252125225315215132256224320227332325120322104352122115232);
  (0x6307, 0x125152452225156217325252232332320315115215330120352227327107331132256220);
  (0x6308, 0x413252315);
  (0x6309, 0x434134152107115125225156120327227325104320215);
  (0x630e, 0x452125);
  (0x6311, 0x156152452125315115320200120252352362327162225262100);
  (0x6316, 0x452152125252115227132120325);
  (0x631a, 0x200402125227327100);
  (0x631b, 0x256325152252225);
  (0x631d, 0x230459332330331);
  (0x631e, 0x252413315152327);
  (0x631f, 0x452152252115256);
  (0x6320, 0x452252215152225125315130220);
  (0x6321, 0x452252152225125215320325156115);
  (0x6322, 0x413);
  (0x6323, 0x152452252315227);
  (0x6324, 0x452152252200156115315120132125256362162);
  (0x6325, 0x252452152325225125227115120215315327331220320332156);
  (0x6328, 0x452152107315115200227307120362262);
  (0x632a, 0x130452152252125131417132327315320);
  (0x632b, 0x252452125152215220120);
  (0x632f, 0x152452327225252125156227200325220215115315127132454320332120130328330);
  (0x6332, 0x252459);
  (0x6339, 0x125413152);
  (0x633a, 0x407152452227200100262115362327320252162215125228315);
  (0x633d, 0x152452125315327332);
  (0x6342, 0x452152327);
  (0x6343, 0x413);
  (0x6345, 0x452152120);
  (0x6346, 0x452152222104252125325232422);
  (0x6349, 0x452252152315115120156330);
  (0x634b, 0x452152315);
  (0x634c, 0x422122227322222);
  (0x634d, 0x152125);
  (0x634e, 0x452152107);
  (0x634f, 0x452152252120200362262315320132115);
  (0x6350, 0x152452125315256225120325252215);
  (0x6355, 0x252152452125225115325156132256320);
  (0x635e, 0x452252152315330256325120225125130);
  (0x635f, 0x125152256252454456225156325115215227352320220200327315);
  (0x6361, 0x452152252120);
  (0x6362, 0x252452152132106320315129325256156125215332327227317220);
  (0x6363, 0x152452252125352315);
  (0x6367, 0x452252152227315120156327256);
  (0x6369, 0x252413325);
  (0x636d, 0x315);
  (0x636e, 0x225234434152252325107125330220115200256320215315352327);
  (0x6376, 0x452152115315);
  (0x6377, 0x130200417227225327125252262132232220115330325207329356320215127315152131129229228);
  (0x637a, 0x315425452252);
  (0x637b, 0x452125225152325);
  (0x6380, 0x152452115);
  (0x6382, 0x452152352115);
  (0x6387, 0x252413);
  (0x6388, 0x225152454252227320125156315104327256325115132304220331);
  (0x6389, 0x452252152115320215120);
  (0x638a, 0x413);
  (0x638c, 0x152125425225452252117127215104327325227156315232320115220120);
  (0x638e, 0x115413);
  (0x638f, 0x152452227);
  (0x6390, 0x452152115320);
  (0x6392, 0x152252125452256222156225132242207422115320317120315217143325231227130331117352330100);
  (0x6396, 0x452230252130330256);
  (0x6398, 0x252452152325125327315256332);
  (0x63a0, 0x152452252325125220156256315320107104115);
  (0x63a2, 0x152452125252156256127225325115227315327320132120143);
  (0x63a3, 0x452152215320156252);
  (0x63a5, 0x152201452252106204125107306325120225315115256156320215117227132332327104304317220);
  (0x63a7, 0x152256252452125217156204225325332132232120331117);
  (0x63a8, 0x152452125156256115252325220315227320132332204352120215);
  (0x63a9, 0x152452252125156115352315332215120256220327);
  (0x63aa, 0x125225215252152115454156227129327130325120127);
  (0x63ac, 0x452215220327);
  (0x63ad, 0x452);
  (0x63ae, 0x125);
  (0x63b0, 0x452152327252);
  (0x63b3, 0x454152);
  (0x63b4, 0x452);
  (0x63b7, 0x452252215125315115152);
  (0x63b8, 0x452130325125);
  (0x63ba, 0x152452125132120);
  (0x63be, 0x413);
  (0x63c4, 0x252413);
  (0x63c6, 0x413227);
  (0x63c9, 0x452152315227);
  (0x63cd, 0x452252);
  (0x63ce, 0x452115);
  (0x63cf, 0x152252225452325315125227156115);
  (0x63d0, 0x152452225125325156252227327204315115230330320220104215229129329130304232120331256132332107317);
  (0x63d2, 0x452152125252115315156225320132325120107130);
  (0x63d6, 0x454327252227215152);
  (0x63e0, 0x115);
  (0x63e1, 0x252452152220132215115325125327);
  (0x63e3, 0x452152252227);
  (0x63e9, 0x452152227);
  (0x63ea, 0x452100152115);
  (0x63ed, 0x152452256252125130115120127215129315);
  (0x63f2, 0x413);
  (0x63f4, 0x252156454256152125225327317325215227332228220315217107);
  (0x63f6, 0x152);
  (0x63fd, 0x452320252152220215227315332327335);
  (0x6400, 0x452152227);
  (0x6401, 0x452252152132227);
  (0x6402, 0x452152252125);
  (0x6405, 0x452152252125315227156);
  (0x640b, 0x452);
  (0x640f, 0x152454252225426156325227332320220215327);
  (0x6410, 0x252413152);
  (0x6413, 0x452252152125132115);
  (0x6414, 0x452152315115325);
  (0x641b, 0x452);
  (0x641c, 0x152452156132125115327320220131);
  (0x641e, 0x452152252100200125120);
  (0x6420, 0x452227327);
  (0x6421, 0x252452352227);
  (0x6426, 0x413252);
  (0x642a, 0x125152452252);
  (0x642c, 0x452152252156125315115120227);
  (0x642d, 0x452152252125156325320362262120227315);
  (0x6434, 0x413);
  (0x643a, 0x152452304125252315204132120227325115320327);
  (0x643d, 0x452152115227327);
  (0x643f, 0x413);
  (0x6441, 0x452);
  (0x6444, 0x152125454252122322104135325315331228115132156);
  (0x6445, 0x413);
  (0x6446, 0x152452252125320225352215120315156104256332325);
  (0x6447, 0x152452352252327125115315162362227215204120201320220256132156304325);
  (0x6448, 0x152454);
  (0x644a, 0x125425452152222225252256325142352220227422);
  (0x6452, 0x152454120);
  (0x6454, 0x452152225156220125);
  (0x6458, 0x452152125252225156120315256227325);
  (0x645e, 0x222452435);
  (0x6467, 0x152454215156115125315227);
  (0x6469, 0x132417125327152252130156129230227229330115100232127332325320452256117162331224329131315);
  (0x646d, 0x413227);
  (0x6478, 0x452252152125315120207215320227325362332162220304115256);
  (0x6479, 0x452252152125227327);
  (0x647a, 0x452152125);
  (0x6482, 0x452152227);
  (0x6484, 0x413327);
  (0x6485, 0x452425262362);
  (0x6487, 0x152452425222325435220320);
  (0x6491, 0x252452152325125225227332120256);
  (0x6492, 0x452152330125130230129252132229120227107327225325127115315329);
  (0x6495, 0x452152120232);
  (0x6496, 0x413);
  (0x6499, 0x152);
  (0x649e, 0x452152252256362262200215156325125315225220227);
  (0x64a4, 0x152452252156227132);
  (0x64a9, 0x452152100);
  (0x64ac, 0x452152125);
  (0x64ad, 0x256152452252325125331130229225220156227232304332315);
  (0x64ae, 0x452435152222125156322327);
  (0x64b0, 0x454152252125227325);
  (0x64b5, 0x452152);
  (0x64b7, 0x454152252);
  (0x64b8, 0x125);
  (0x64ba, 0x152);
  (0x64bc, 0x252452152315325115120327320227);
  (0x64c0, 0x452125227332);
  (0x64c2, 0x152452215125352252115130);
  (0x64c5, 0x454152107252115);
  (0x64cd, 0x152452227125225127120325220115320252315425256327331100156);
  (0x64ce, 0x225227452152327125325315);
  (0x64d0, 0x413);
  (0x64d2, 0x452252152227315327120215115320132125);
  (0x64d8, 0x413225152);
  (0x64de, 0x459215315252);
  (0x64e2, 0x413152252227115);
  (0x64e4, 0x452);
  (0x64e6, 0x452252256152325120125315220320225115132);
  (0x6500, 0x152452130227327252125215115156320120131);
  (0x6509, 0x452);
  (0x6512, 0x452252320152125227315);
  (0x6518, 0x454315215327120252262152);
  (0x6525, 0x452);
  (0x652b, 0x152);
  (0x652e, 0x452125);
  (0x652f, 0x152125222225435156252325422127330317315227232115352327132117230256215238217120320220162);
  (0x6536, 0x125152252452325225156256315115320227220317217132215120327332117304143);
  (0x6538, 0x152315130320);
  (0x6539, 0x152156452252125320217327115107117227325315256215332132220317331130120);
  (0x653b, 0x152252452256125156325227315115327215120320132);
  (0x653e, 0x152252452325125331332220227107343315120128100156215262200115320327304204330256117228232352230356132225130317);
  (0x653f, 0x125225325331252227426320327117152120217317132332215330256304130321131228220156315229231352115328);
  (0x6545, 0x406125225107252130215207152106425315330115132120325220327304200320);
  (0x6548, 0x125200225252325152204426215320327227315220217332256352232230);
  (0x6549, 0x413327);
  (0x654c, 0x125426252225100215142315256152120227320325454331220332115);
  (0x654f, 0x227100402200327325252125230330204232256320225220215228332);
  (0x6551, 0x452252152156125315256120325320115332215327225330317131104);
  (0x6555, 0x426125454227130);
  (0x6556, 0x127427227125327331130454132);
  (0x6559, 0x125156232225452252325320152217331227327256117315215317220231330143120131332104304115129328);
  (0x655b, 0x252454152256215200327115227);
  (0x655d, 0x438200142215125138115315320);
  (0x655e, 0x452200152104100320227125327228);
  (0x6562, 0x207452125200152252320107115315227327120325352);
  (0x6563, 0x252452152125200325215256100225315227104327220156217115352362262329320425332304328);
  (0x6566, 0x230130227152331427125327225417330100328131229315162156362129402);
  (0x656b, 0x413);
  (0x656c, 0x152252327452127200227125362262215115156315120220320330228);
  (0x6570, 0x225125222122422325322220252207320215117152232200120352156227115315327331143104129332132);
  (0x6572, 0x452152252125115120315132220320215);
  (0x6574, 0x256125104152200107252156122422100207452322325362162120132315222115262343227327220225332320331);
  (0x6577, 0x452152252315227115125327132325156);
  (0x6587, 0x125225327426325227127232132120252320238222117331130332315131330329142115243100328200230129229228352215162128217235422356152317256143304156362);
  (0x658b, 0x426227152252225125232332327143343230130127320);
  (0x658c, 0x227427327228);
  (0x6590, 0x417327227130162129329);
  (0x6591, 0x125225425162325262220320315362327215332130115);
  (0x6593, 0x459262215220227327);
  (0x6597, 0x156256452325252225125320222152227215332315107327130115132200220232330422228352304);
  (0x6599, 0x225425252220152325320215207232256315125452227204115331230162332304330);
  (0x659b, 0x435227225127);
  (0x659c, 0x452252125152225362262325400112320104327132330115207232);
  (0x659f, 0x152452315227327);
  (0x65a1, 0x330152332156);
  (0x65a4, 0x222435235422315125115325225224320328);
  (0x65a5, 0x252152454256315125325120320);
  (0x65a7, 0x426125225232325215227315156);
  (0x65a9, 0x452152115252315320204325232);
  (0x65ab, 0x454327227);
  (0x65ad, 0x207252452152125215325225107200315115220256330320201156104230227304120132352327);
  (0x65af, 0x227330230327127332229329225232130427438325331129439125417328132100131315426115352220231320);
  (0x65b0, 0x400125252130207104152200132100131327325204227332129232256330230127115215143107225217315156343120331220117317328320228329229304262128);
  (0x65b9, 0x125225435212242335306322222127325100327238320324107227235207315143331200215132252232332204217330130115362422230262304220352128120328307162329224231256228131129);
  (0x65bc, 0x427127410327227315);
  (0x65bd, 0x225252152156127452327125227215129315230220330128130325229131256352132329332320232115);
  (0x65c1, 0x112412212242138152125315130115320227225325330217120156);
  (0x65c3, 0x413325125227);
  (0x65c4, 0x413315);
  (0x65c5, 0x156125425152225217130331132332227117325131252232231327);
  (0x65c6, 0x413227);
  (0x65cb, 0x152125407252225325107256227315104327304132330120115);
  (0x65cc, 0x125320130152225129115);
  (0x65ce, 0x459200215320);
  (0x65cf, 0x225232426330325125238227435332320331252217352327304356215220);
  (0x65d2, 0x413225);
  (0x65d6, 0x100315120);
  (0x65d7, 0x125225425227230331315327115330252320325256332232231129220);
  (0x65e0, 0x452152107315125106115252104120100320122162130132143327127156204325227332220217207215101117304331322131103328);
  (0x65e2, 0x406106104315115125143227327120);
  (0x65e5, 0x422243130125417225222107143238332117104256207131152229315325320215330232204322115327127252220132122129227331120230329228135235100162328217343317156352304);
  (0x65e6, 0x207243225227331230417215426315435343232143325327125330217454252320);
  (0x65e7, 0x400125262207143200252225130104325230204217215320227315256115220330120129152317327);
  (0x65e8, 0x426225152125252227327325215);
  (0x65e9, 0x400143107207125243152112252220227320200315338115327131117225120307331156132332100127129232);
  (0x65ec, 0x243435222125426217130227322327);
  (0x65ed, 0x227327427328129125120130228115127);
  (0x65ee, 0x125327);
  (0x65ef, 0x225459227);
  (0x65f0, 0x413315);
  (0x65f1, 0x200125400225325156256252120117143343352227220327320);
  (0x65f6, 0x125426206243238207225204201107325320338252307327230152315200343127120128215222100227304332220143224115331235217229228162362131352132256130129104322330328);
  (0x65f7, 0x400127125200227427115315327104100107152362262215320);
  (0x65fa, 0x400100125227200330327127152320230129220215229225317228130);
  (0x6600, 0x227413327);
  (0x6602, 0x100452227200230152215327127362262229129225454315232120332115329162130330131228);
  (0x6603, 0x413215);
  (0x6606, 0x130125417227327330332117131129127228217230331132320);
  (0x660a, 0x427227327130132232228);
  (0x660c, 0x230227327127130330417229427320332132325100228232129315125331215131);
  (0x660e, 0x252143100152225227400200101127125327407325207230232330107243315228215115120162130132220320362262343402331117156332229352129307329317304201256128104356235131328);
  (0x660f, 0x243152452100162252315120156362125320115444215307107327456325227400225);
  (0x6613, 0x225256325200400127331207220152315125227215100232327330229130329132332320204343252115120128156131104129328230);
  (0x6614, 0x143444243327315227225215130207);
  (0x6615, 0x227413327);
  (0x6619, 0x115125);
  (0x661d, 0x427127);
  (0x661f, 0x225125425227232143325327304200132115127315207330331104320252152130220215204120224343362262332230217322222328129231324228);
  (0x6620, 0x252452152325127125215227120327315256232);
  (0x6625, 0x444125143227327230225127243330343256315252228132325115152217117120220332320232331215156130129317229131304328);
  (0x6627, 0x200452225315104215325227);
  (0x6628, 0x143444227327);
  (0x662d, 0x454227327129152330130132315125262162115100402329320);
  (0x662f, 0x452206225207252152320220120238106306125215315143115232327217325138328352);
  (0x6631, 0x227413327);
  (0x6634, 0x413227);
  (0x6635, 0x454252200125227);
  (0x6636, 0x227413327);
  (0x663c, 0x125225426227120143115444);
  (0x663e, 0x152200452101100125252227327115127104132325315320232120117130225352230328329);
  (0x6641, 0x127427227327);
  (0x6643, 0x452252362152262227315327162100200232125325107);
  (0x664b, 0x417243127130217227152225327117143132131452129125230330156320331228315115);
  (0x664c, 0x222143435444243322252227);
  (0x664f, 0x127227427327152330315215229402128);
  (0x6652, 0x452252152125325215315229327227332132);
  (0x6653, 0x327152252127454227215243328115220320130325232225125129256228);
  (0x6654, 0x227413327);
  (0x6655, 0x452252152225315115200162362227325320120215125);
  (0x6656, 0x227427225327228332);
  (0x6657, 0x227413327);
  (0x665a, 0x143444243125207220225238152317315232227327325343332215228320117);
  (0x665f, 0x227413327);
  (0x6661, 0x413);
  (0x6664, 0x252454325330331152227327);
  (0x6666, 0x103200100215162315252125143);
  (0x6668, 0x243125427227232332327444143152315228115331);
  (0x666e, 0x101100427125227127327152132325130330156229332129230225204329232331131162362135115104402120117217228);
  (0x666f, 0x225125426127325327100227130300132252315330230320152332220215256304232231128329);
  (0x6670, 0x200252320325413227356);
  (0x6674, 0x452227132125100327115120252152215220130225129162);
  (0x6676, 0x125225325427227100327362262132332229115426117217120232228);
  (0x6677, 0x413225215);
  (0x667a, 0x125426227225127427327200130152417325215315328252320204115104220131232156317201217304117402229228);
  (0x667e, 0x452152327227125);
  (0x6682, 0x107407152200104125327227156);
  (0x6684, 0x252413227);
  (0x6687, 0x413225207215315227320);
  (0x668c, 0x454152);
  (0x6691, 0x252225143402444330125243325327220227320256315);
  (0x6696, 0x400252203125327162200100362225325152320332227104215315204130256317132);
  (0x6697, 0x107452152125200207225100400252262315156104115327215220320325401142162227);
  (0x669d, 0x413);
  (0x66a7, 0x100125115);
  (0x66a8, 0x406131230117127330130325227327);
  (0x66ae, 0x444125143315402225120327243215227115325);
  (0x66b4, 0x152125225200425127100156315320115325252120400227215327201401);
  (0x66b9, 0x130459227);
  (0x66be, 0x413227);
  (0x66d9, 0x327125132330328);
  (0x66db, 0x413);
  (0x66dc, 0x413227327232);
  (0x66dd, 0x152454132125227315);
  (0x66e6, 0x227427225327);
  (0x66e9, 0x413);
  (0x66f0, 0x454252327227206220315215);
  (0x66f2, 0x225125435252100325127130222227230315362262162320330152327332115229220200120331129422204256132);
  (0x66f3, 0x252125152325362320262132315);
  (0x66f4, 0x407107152252243120100315115327125156215106332325127227320104132229143);
  (0x66f7, 0x413);
  (0x66f9, 0x127427130327227225128230315125115238320132);
  (0x66fc, 0x227330130229402127230327325225129125329232332331300131100128200117203132315152);
  (0x66fe, 0x407107207127227125130229327315128115228129);
  (0x66ff, 0x434252152125225115156215256325220332327320452232132);
  (0x6700, 0x407100107112143125162104152131120207331142227327117);
  (0x6708, 0x422425125243222225143238117343327435325252332227207315215232330352127115220130324132228320229224331256120230);
  (0x6709, 0x452252138152100204125156107325120256206104315320327115215207127200122331352227220328304232306132343356332322117228217);
  (0x670a, 0x413);
  (0x670b, 0x125325426320225227315327352115215132);
  (0x670d, 0x156225252125152452200325256320227222215315220362327232262100217162127332331422115143);
  (0x6710, 0x413230330);
  (0x6714, 0x417125315230143227130228327330232243132200);
  (0x6715, 0x413227125327);
  (0x6717, 0x227200230427327330152329129332225262162356229215320222325315130232228100115402331125156362220132);
  (0x671b, 0x252452225200152127125227325315115256215327130232220243204320120132230229330329331332328143);
  (0x671d, 0x434243125225130327227152134132315252330115224220131217117325320332127328156331215129230);
  (0x671f, 0x225212256243125207204112435252152217222325320343238422143331227117315232352215104156332327115224);
  (0x6726, 0x100162362262125327227);
  (0x6728, 0x125225425330127227327325230426252104315400320215232162115130229120100328132332129200331217329362204256220231);
  (0x672a, 0x407143207152107315125320115227327325156130129120222329132328322232104);
  (0x672b, 0x412243125206225112327227343143315329230325215320212200107120238330220);
  (0x672c, 0x225138200438230325125143107220307330207222331320327204252227315238132134356127130422115152129229332215117328120304104228256329162362232224100);
  (0x672d, 0x435426225125327130227129);
  (0x672f, 0x225325452252426125331227220143320327330217215315204352332304);
  (0x6731, 0x127427125227327128104129130315115131325225330132);
  (0x6734, 0x200100127125427227225327115315129320262162362215128328228203);
  (0x6735, 0x225222435227422230235135322320327125325129220132152);
  (0x673a, 0x125225426325207204100256252104320315152220232156227142332330215238304331120217115131327229352132117317222101130);
  (0x673d, 0x200262452225152127215320325252456115315);
  (0x6740, 0x452152252125256115156315225325120132320215200332327232352130330220);
  (0x6742, 0x200125452252400325156215100152115352315262204120320362256225220331232162201217327130132);
  (0x6743, 0x225125425252325127227320217152327228315220107256332115331232221230330117207132120215317229143100);
  (0x6746, 0x225125435222320325230132327232227204304422252);
  (0x6748, 0x225425252);
  (0x6749, 0x225426227330125232132325127331131327130129229);
  (0x674c, 0x413125);
  (0x674e, 0x127427128225227327125325130230315132215330131220115129);
  (0x674f, 0x426125227225327130325104315232120);
  (0x6750, 0x225125325425252227426320332232215315327220231331217132);
  (0x6751, 0x125225425227230238142117104232327325229252130330120127156228220329320256331152332);
  (0x6753, 0x413327227);
  (0x6756, 0x225426327227252215330120);
  (0x675c, 0x127125427152327227329130132332129454128331330131315229115120);
  (0x675e, 0x130225325115125227131);
  (0x675f, 0x252256225452152222325435115156127200125215204227327129422120320132);
  (0x6760, 0x125225452252227230327);
  (0x6761, 0x125222435225422224325200320307315120220238330362262252215207327229152332204227115230232130117352132331122);
  (0x6765, 0x252452243152207212145125307220256206227143215230330315325320204229327225306127115352130362162332160232100120132228317129331156304200);
  (0x6768, 0x127427227125225128327130325232330132230315215332228129120);
  (0x6769, 0x459);
  (0x676a, 0x413327227);
  (0x676d, 0x127130417332125227230330327128131132229129);
  (0x676f, 0x222225435125252232115325422142227200217322230320332235135215);
  (0x6770, 0x227100327127427225125129426229130220215228315217332402329232);
  (0x6772, 0x227427327);
  (0x6773, 0x115402327227120152);
  (0x6775, 0x452225125426227215327315);
  (0x6777, 0x225459325330);
  (0x677c, 0x413225227327215);
  (0x677e, 0x200452225125130227100127252152327325256330229362129262132230232162131228117220304331332329);
  (0x677f, 0x225125426325252232200227104130230315132100327320129330115332220328215217229352362262);
  (0x6781, 0x201407107225125100325230200252145315122156152330320227215104204115331327356217352332129130117132228);
  (0x6784, 0x225152125325454252120156426220227231327320256229356332);
  (0x6787, 0x125130);
  (0x6789, 0x454252315152325162227320115);
  (0x678b, 0x413227327130225);
  (0x6790, 0x256325252454220152320225215227327232332315);
  (0x6795, 0x125452142225315252227327115152215426230220132120232104);
  (0x6797, 0x225127227125426230327232330325332252142331229152130128217317220228129215132329112320117315231120131352304328);
  (0x6798, 0x413);
  (0x679a, 0x422222435325315227252228327132);
  (0x679c, 0x206225107125426306325100230252227232215327330101115106127320315117217130129331104332317132229329152220343228);
  (0x679d, 0x225435125222315227330325327130215115252422320426417162362220331204);
  (0x679e, 0x130125);
  (0x67a2, 0x125225325320220132120332315);
  (0x67a3, 0x225425125130104129325327215230);
  (0x67a5, 0x413215227130252);
  (0x67a7, 0x413327);
  (0x67a8, 0x413);
  (0x67aa, 0x425225125222252220152325315227156232215115422320120132352);
  (0x67ab, 0x427227125130327426225132);
  (0x67ad, 0x125152115225);
  (0x67af, 0x125452152100143252162315325115227120103262);
  (0x67b0, 0x426227);
  (0x67b3, 0x125);
  (0x67b5, 0x413);
  (0x67b6, 0x225435422222252125152325142156230330232320315256122322227135130352215132332304);
  (0x67b7, 0x125315225);
  (0x67b8, 0x125132327);
  (0x67c1, 0x413);
  (0x67c3, 0x459);
  (0x67c4, 0x425225227327215426232125);
  (0x67cf, 0x130127327227225330125426427230132331228229325131129232);
  (0x67d0, 0x138438227238327225329229);
  (0x67d1, 0x125426225327);
  (0x67d2, 0x422122227322222);
  (0x67d3, 0x252256125325452152225215204227232320156132332220327343304);
  (0x67d4, 0x100200452125315227327230400103129120325330162362115152332220331320);
  (0x67d8, 0x413130327330227);
  (0x67d9, 0x413227);
  (0x67da, 0x426125225327);
  (0x67dc, 0x225125426325227215232252142104132);
  (0x67dd, 0x413327);
  (0x67de, 0x125130);
  (0x67e0, 0x125132);
  (0x67e2, 0x413215);
  (0x67e5, 0x256152252452127325129220227327331130330320156329225332315120230125229132);
  (0x67e9, 0x225);
  (0x67ec, 0x130417225131327125227132);
  (0x67ef, 0x127132227425327225129315332232330128325427131229);
  (0x67f0, 0x413);
  (0x67f1, 0x225425227125325327132222215256330328230235315422435232228);
  (0x67f3, 0x127425125426225130327227330129128117315115325229215104120132332230131328320);
  (0x67f4, 0x125425127225130252232325215115330315331120129227327217);
  (0x67fd, 0x125459227);
  (0x67ff, 0x426125225327227130);
  (0x6800, 0x125426327);
  (0x6805, 0x426225125227325330327232);
  (0x6807, 0x125225252452325152217227156100220327331115120320132304315131307256352425317104232);
  (0x6808, 0x225125426227315252);
  (0x6809, 0x413315152227115327);
  (0x680a, 0x413227);
  (0x680b, 0x222227435238422327215125315115120);
  (0x680c, 0x459225227);
  (0x680e, 0x426225227327125130);
  (0x680f, 0x225125425238252325227207230330327320256);
  (0x6811, 0x125225452327142152227230325330252315320115130120104220215229228132332256329128328343232);
  (0x6813, 0x225125426227325252327);
  (0x6816, 0x152454204227327320125130325230330);
  (0x6817, 0x225127125252227427215426327330230325256315115);
  (0x681d, 0x125459);
  (0x6821, 0x225125426217220152325238252231227327204142156452256112132117104331332130);
  (0x6829, 0x115315162362);
  (0x682a, 0x222435225130220125152156422315238227327115131331215);
  (0x6832, 0x125);
  (0x6833, 0x225459);
  (0x6837, 0x238245207125225222435220320352325252215227426200204327256315322422332135235445324304224);
  (0x6838, 0x125425225252152256156325120331320227117352304204327317332);
  (0x6839, 0x134100125222435225230232330227332422252224327315152307320325229115331215207329129352130104156256);
  (0x683c, 0x225125201327330127252417227107425132325229130129332331230232329215152115220131315352320235200356204335117);
  (0x683d, 0x156452152225120252125320227327);
  (0x683e, 0x127130427327227);
  (0x6840, 0x427227115100327125315);
  (0x6841, 0x125104);
  (0x6842, 0x227130127327125417427225217331426132332117325229330215328252232128352131115);
  (0x6843, 0x225125425130325227330315327115232332320220104230);
  (0x6844, 0x125452);
  (0x6845, 0x426125225227327);
  (0x6846, 0x125225452325435152232222422227332);
  (0x6848, 0x225125426252238325222152315331256217215320220356227422317117115);
  (0x6849, 0x125132225);
  (0x684a, 0x413);
  (0x684c, 0x125142225426222252352435325130327132422232);
  (0x684e, 0x125152);
  (0x6850, 0x225130227125426325327217132230127330);
  (0x6851, 0x127125330225227426427130327229315132230215129325331220128232217131329332120);
  (0x6853, 0x127413227327252225130);
  (0x6854, 0x125427225104227426129327);
  (0x6855, 0x225413325);
  (0x6860, 0x225125);
  (0x6861, 0x125);
  (0x6862, 0x227413243327);
  (0x6863, 0x125425204225222435252422331322320227217304256352132426215);
  (0x6864, 0x413125327);
  (0x6865, 0x425225230125227252142331232330327229332130325132215328315127220228129120);
  (0x6866, 0x427125225227130325132327129232);
  (0x6867, 0x227413327228125);
  (0x6868, 0x225425125252232327227);
  (0x6869, 0x222435425225252215125227325422);
  (0x686b, 0x125);
  (0x6874, 0x413);
  (0x6876, 0x435222225238422104252325129232);
  (0x6877, 0x413325);
  (0x6881, 0x127225425130227327230315325330128252129125215220232332229320228115);
  (0x6883, 0x125);
  (0x6885, 0x227127125225426327427130129132230232325315330331329229332252417220343128228);
  (0x6886, 0x125433325362262327162227);
  (0x688f, 0x225413252);
  (0x6893, 0x225129228230125252227130330);
  (0x6897, 0x452152325225125252327215217100200);
  (0x68a2, 0x426225327125227220215252320325);
  (0x68a6, 0x425125327225252152232127227315325215115320132129220229120332330331);
  (0x68a7, 0x125130200229325228330);
  (0x68a8, 0x425125225227327325332130230115132330120232);
  (0x68ad, 0x125426252227435225229129327232325132215130204);
  (0x68af, 0x225125426325332304227327127435230320232330);
  (0x68b0, 0x225325352356320304252331220152332156256);
  (0x68b3, 0x152452125204225115132232227256327325156);
  (0x68b5, 0x132130125133325129131);
  (0x68c0, 0x156152125252452217104325331317256227327225132332);
  (0x68c2, 0x413225327227);
  (0x68c9, 0x125426225132104325230130227217252327232330332231331);
  (0x68cb, 0x125425225315252227220327152325115215331130117);
  (0x68cd, 0x426225125325220315320);
  (0x68d2, 0x400225125215325227232327152332252315200130115162);
  (0x68d5, 0x125426104225227130332325204327);
  (0x68d8, 0x426225100125120215227327325104320);
  (0x68da, 0x225425125142227252220327230325);
  (0x68e0, 0x225228325227125230130);
  (0x68e3, 0x328225230125330);
  (0x68ee, 0x125227327427330100127229232200362262315117230162331129320329132325402332115130);
  (0x68f0, 0x452225330);
  (0x68f1, 0x426125227315325204132327115330225320252332230200);
  (0x68f5, 0x222435330422125227327320);
  (0x68f9, 0x413227);
  (0x68fa, 0x125426225327252315320132);
  (0x68fc, 0x413);
  (0x6901, 0x413225227327);
  (0x6905, 0x225125426325227232327);
  (0x690b, 0x459125327227);
  (0x690d, 0x125252325320452317152227120127327132230156330331104129256220143);
  (0x690e, 0x320225125325);
  (0x6910, 0x413);
  (0x6912, 0x225426325227130327230125232);
  (0x691f, 0x413);
  (0x6920, 0x413);
  (0x6924, 0x459225227);
  (0x692d, 0x125);
  (0x6930, 0x125426325332225227327130);
  (0x6934, 0x125225);
  (0x6939, 0x227459225332);
  (0x693d, 0x426125227327);
  (0x693f, 0x413227125327225325);
  (0x6942, 0x225459325362262);
  (0x6954, 0x125452120225232);
  (0x6957, 0x413327);
  (0x695a, 0x200127427417125130327362262227220225315115330243325129132215229230328128);
  (0x695d, 0x325225125);
  (0x695e, 0x330225125325230252362262);
  (0x6960, 0x227125425327427130228129);
  (0x6963, 0x413225227327);
  (0x6966, 0x426225125327227);
  (0x696b, 0x225426227327);
  (0x696e, 0x427);
  (0x6977, 0x125227427225426220417327);
  (0x6978, 0x413225232125327);
  (0x6979, 0x435227327125);
  (0x697c, 0x125225425142252230227127332130315215112327325238228330128232120229320129231);
  (0x6980, 0x435);
  (0x6982, 0x125207152407225315320120426115227106117);
  (0x6984, 0x325225413330327227);
  (0x6986, 0x130426125227327225330230115215);
  (0x6987, 0x413227225327);
  (0x6988, 0x325225459330232332);
  (0x6989, 0x225459125227);
  (0x698d, 0x459);
  (0x6994, 0x225125);
  (0x6995, 0x125417426130227327132);
  (0x699b, 0x125132228);
  (0x699c, 0x425125252225227120315320215327115325228232229);
  (0x69a7, 0x225125);
  (0x69a8, 0x152125452252256156332204227315);
  (0x69ab, 0x125225325252);
  (0x69ad, 0x413225230330229227327215315);
  (0x69b1, 0x413);
  (0x69b4, 0x125325225227);
  (0x69b7, 0x413252227);
  (0x69bb, 0x425225252125325);
  (0x69c1, 0x413200125115227315);
  (0x69ca, 0x413227327315);
  (0x69cc, 0x426225252315);
  (0x69ce, 0x426225227);
  (0x69d0, 0x125427225227426330215327130);
  (0x69d4, 0x459);
  (0x69db, 0x225413325);
  (0x69df, 0x125225325);
  (0x69e0, 0x225413227);
  (0x69ed, 0x413);
  (0x69f2, 0x125132);
  (0x69fd, 0x426225125252227327325232132256);
  (0x69ff, 0x459227225327325);
  (0x6a0a, 0x127130230427330125227327);
  (0x6a17, 0x413327125);
  (0x6a18, 0x435);
  (0x6a1f, 0x125130225230332);
  (0x6a21, 0x225125204152426100227315220320104162362352120325207115327217156132356229252232);
  (0x6a28, 0x225227459);
  (0x6a2a, 0x452152125252130200315115227107320325327132120220104100232352215127201129);
  (0x6a2f, 0x426225227125);
  (0x6a31, 0x125427426130227127327325132);
  (0x6a35, 0x125225330152229);
  (0x6a3d, 0x426327125227315);
  (0x6a3e, 0x413227327);
  (0x6a44, 0x125325130);
  (0x6a47, 0x413225);
  (0x6a50, 0x433328);
  (0x6a58, 0x225125104130127);
  (0x6a59, 0x125426225104227405232327332362262132);
  (0x6a5b, 0x125);
  (0x6a61, 0x125325320132120);
  (0x6a65, 0x413);
  (0x6a71, 0x125225426);
  (0x6a79, 0x426227327225);
  (0x6a7c, 0x459225332227);
  (0x6a80, 0x427227125225327426127130325);
  (0x6a84, 0x125);
  (0x6a8e, 0x459225227);
  (0x6a90, 0x225426315125227325320);
  (0x6a91, 0x125413);
  (0x6a97, 0x225459);
  (0x6aa0, 0x413);
  (0x6aa9, 0x125426227);
  (0x6aab, 0x413);
  (0x6aac, 0x225459325332227);
  (0x6b20, 0x452152252225125315227120100156327115);
  (0x6b21, 0x222238207435422143206332125225352243204307104224152322252215325330327220235320230315135324107132120227129130);
  (0x6b22, 0x252152400100125227315115225130325327120352256320215220162362156332);
  (0x6b23, 0x152100227427454107327315115132200125129307230228328);
  (0x6b24, 0x460227);
  (0x6b27, 0x130125230417127117131132325129217227225104128331120327152330229252256232115135);
  (0x6b32, 0x407225315125252215320227120115152327325);
  (0x6b37, 0x459227);
  (0x6b39, 0x402410);
  (0x6b3a, 0x152456156315115125454252100120215);
  (0x6b3e, 0x225252425222422125325152204217238220256332232320227156100200120);
  (0x6b43, 0x152115);
  (0x6b46, 0x227413327100);
  (0x6b47, 0x452152252325225330327125227130304331329352);
  (0x6b49, 0x252200426125100402220156152);
  (0x6b4c, 0x125225425152252227320222129115315327331215325232132422330229104130256127);
  (0x6b59, 0x413130125227);
  (0x6b62, 0x252452152245220225215107125325256156320127315227327120115132);
  (0x6b63, 0x407100207152101107125227252162327200143104315225228232304325130112132156332115215127120362262320328256129243117230124307331204131201220231330343);
  (0x6b64, 0x438206138238207106143306142320220315115124215120132227152327);
  (0x6b65, 0x207222125256225435252152253325320315127220135235327322215422132115332328227120317232352330230107117);
  (0x6b66, 0x125130127227152325225427327120320330117417252200243230131315132426229329331217215402100232304129156228128101317256352343);
  (0x6b67, 0x225152125402320227327156315325132304);
  (0x6b6a, 0x452152362162215125115200262227320220327315400156);
  (0x6b79, 0x225125215402100315207);
  (0x6b7b, 0x452252152125325315225115207215227162107362220320200100120256117352262156327332204130);
  (0x6b7c, 0x152454252125256);
  (0x6b81, 0x413);
  (0x6b82, 0x413);
  (0x6b83, 0x252454152315225115);
  (0x6b84, 0x413315227);
  (0x6b86, 0x152407200215);
  (0x6b87, 0x454225327227);
  (0x6b89, 0x152454125315320);
  (0x6b8a, 0x200407325125152227220115100225327215320352107120331356332);
  (0x6b8b, 0x125400100152252315256156200115325120217225331327332143320117162132204215317);
  (0x6b8d, 0x225459315);
  (0x6b92, 0x152215);
  (0x6b93, 0x252454);
  (0x6b96, 0x125256252325152220156225204352232320332);
  (0x6b9a, 0x115);
  (0x6b9b, 0x413);
  (0x6ba1, 0x152252125156256);
  (0x6baa, 0x413);
  (0x6bb3, 0x427127227);
  (0x6bb4, 0x152454252220);
  (0x6bb5, 0x225222435325127212243238125320252422215227130256220128135217327);
  (0x6bb7, 0x127100427125227104352143262162327101115433129);
  (0x6bbf, 0x425225227125230327142152232215304426332330);
  (0x6bc1, 0x252452152125115227156320325315332120);
  (0x6bc2, 0x459225125227315);
  (0x6bc5, 0x227200327107427125328115228100320);
  (0x6bcb, 0x120407127106115315107327427227);
  (0x6bcd, 0x225125404227325127327426104220320330232217115143230332117215315);
  (0x6bcf, 0x138438134152207107120115320125132227327);
  (0x6bd2, 0x125225252425256325152220200232320203352100315204217332215452115156304117162120132343);
  (0x6bd3, 0x413327227132315);
  (0x6bd4, 0x434107125217252152156330225130120127262327129320229230325331256315215115134227329332232352131235122207322132104220);
  (0x6bd5, 0x107152454252125127315115327104130225227230132128427325129);
  (0x6bd6, 0x413315);
  (0x6bd7, 0x152129125225332156330);
  (0x6bd9, 0x252452152215220);
  (0x6bdb, 0x125427225127325227130327315104135115252162204132215220229100352362332331232117120129330320128);
  (0x6be1, 0x426125225215325);
  (0x6bea, 0x413);
  (0x6beb, 0x122135152120222107125435407225322215315115252335227320426327);
  (0x6bef, 0x225125304325232);
  (0x6bf3, 0x413);
  (0x6bf5, 0x459);
  (0x6bf9, 0x225459);
  (0x6bfd, 0x352125252);
  (0x6c05, 0x413225327);
  (0x6c06, 0x125);
  (0x6c07, 0x225459);
  (0x6c0d, 0x125459);
  (0x6c0f, 0x227426125327225322330204325229332232335230331);
  (0x6c10, 0x413);
  (0x6c11, 0x225125325426331227330104100320332252131315120117327132229256130152230115220215228352317143321232356217156343328);
  (0x6c13, 0x225459220325227);
  (0x6c14, 0x225125425252325200315320100115215152220162203327232356104231256331304207262330362217227120352332132156245201);
  (0x6c15, 0x413);
  (0x6c16, 0x125325);
  (0x6c18, 0x413125);
  (0x6c19, 0x125);
  (0x6c1a, 0x413);
  (0x6c1b, 0x225125);
  (0x6c1f, 0x425125325132332225227232);
  (0x6c21, 0x413);
  (0x6c22, 0x125425225325252332227327232132);
  (0x6c24, 0x125152);
  (0x6c26, 0x425225125);
  (0x6c27, 0x325125152425225332252256204156227327132);
  (0x6c28, 0x125425325225332132129152);
  (0x6c29, 0x425132125);
  (0x6c2a, 0x413);
  (0x6c2e, 0x425125225325232152229132332);
  (0x6c2f, 0x125425325152132332225232);
  (0x6c30, 0x332125325132152320232);
  (0x6c32, 0x459225327252227);
  (0x6c34, 0x125225425325252142230227104127256327330120315115152320215204132130332331232229129220343217162117156131100352304317);
  (0x6c38, 0x107327130407227132127125104162152143120129128200328115229320315230228131215156330);
  (0x6c3d, 0x452);
  (0x6c40, 0x230130229125232225228330129325332);
  (0x6c41, 0x225426125227215232325315327252);
  (0x6c42, 0x252225452152325315215220256227156125115330320327132120352331232129);
  (0x6c46, 0x452);
  (0x6c47, 0x452125225152156132325252331230131227332327229232330320142120256217220115315130);
  (0x6c49, 0x417125243132225127230130143227327330117217129232332331325152320229104215131220315228329128328352120252);
  (0x6c4a, 0x125225330);
  (0x6c50, 0x225325413);
  (0x6c54, 0x413);
  (0x6c55, 0x130230417227330131125327);
  (0x6c57, 0x425230125227225252220115325320327162330120229315152);
  (0x6c5b, 0x143225426256227327252325125);
  (0x6c5c, 0x413227327130);
  (0x6c5d, 0x327127438427130227125132328320439);
  (0x6c5e, 0x425125225232335227);
  (0x6c5f, 0x230130227427330125127327117225142232332212331132315325228128217229320129131115352215342317329220120);
  (0x6c60, 0x225426230125227427127330325435220130327129232142320315332229224252);
  (0x6c61, 0x156125252325426225152315256304215100454115200352332132317227);
  (0x6c64, 0x425127225125130227327232132252325315129215128330320220117331);
  (0x6c68, 0x130);
  (0x6c69, 0x233133);
  (0x6c6a, 0x127452125262362162427115222315128227327230120330435129422);
  (0x6c70, 0x252220454325200152320);
  (0x6c72, 0x152127452227327115328);
  (0x6c74, 0x413130327129227330);
  (0x6c76, 0x130330413227225327232129331);
  (0x6c79, 0x152215315125262162320115100362);
  (0x6c7d, 0x125217225331325320152117332132130231330);
  (0x6c7e, 0x130230125332330327);
  (0x6c81, 0x130452227330230327115232152125120);
  (0x6c82, 0x417230130330125327227325);
  (0x6c83, 0x127200232132327427227130330129125230229115329454332131331315);
  (0x6c85, 0x130417227327);
  (0x6c86, 0x115125);
  (0x6c88, 0x127130417427132332131327227230217125117128330);
  (0x6c89, 0x152100452125200252262162362156315320115227215101225120327220256304228);
  (0x6c8c, 0x200459215315362262);
  (0x6c8f, 0x452152);
  (0x6c90, 0x152454132227320327252115129315);
  (0x6c93, 0x435222200315);
  (0x6c94, 0x413129227130);
  (0x6c99, 0x125127425225230330130227325132327232129152100252315215229220331329332131320256233133156115);
  (0x6c9b, 0x200402227130327315220127252129228);
  (0x6c9f, 0x425152230225125330142227129327252315325332130229352);
  (0x6ca1, 0x152407120352252215100320207115315107101125300132327317156325227);
  (0x6ca3, 0x427227130327);
  (0x6ca4, 0x452156327);
  (0x6ca5, 0x125426315233227362262327325152232225330132);
  (0x6ca6, 0x152252125120156200320232);
  (0x6ca7, 0x130330125115315230320131228327);
  (0x6ca9, 0x413130125);
  (0x6caa, 0x417117125227332217132327130129330328228);
  (0x6cab, 0x225327352325320125215332);
  (0x6cad, 0x130417330227230);
  (0x6cae, 0x100125);
  (0x6cb1, 0x330130132230125220200325131);
  (0x6cb3, 0x130230125425225227330142252232325131127327229215228217315331132152332120129317220320117115256156343329);
  (0x6cb8, 0x125152315454115252215327132);
  (0x6cb9, 0x225125425325252331217232256162152115120320132117315215227362262220100332327330107231130204104156304317);
  (0x6cbb, 0x225152252325452330256320125331243227327332232220130230315229215156120352115132329328117304217228129317);
  (0x6cbc, 0x125225426227327229);
  (0x6cbd, 0x417230152330115325129215227130327315);
  (0x6cbe, 0x452152315115227130327120215);
  (0x6cbf, 0x112434134152125242107225104327142227130234215230325332);
  (0x6cc4, 0x454252152315325125156327115120256);
  (0x6cc5, 0x152452);
  (0x6cc9, 0x225425227232130125230330325426327342315152229331332215220);
  (0x6cca, 0x225426252330125454230227327332152325200320130331256315);
  (0x6ccc, 0x252225325125132152130332);
  (0x6cd0, 0x413227);
  (0x6cd3, 0x435227327);
  (0x6cd4, 0x125325);
  (0x6cd5, 0x225125417130252256325200207204320127227104331132327232215131238220315330129332217135352117152322317122356230156329120228229115304335);
  (0x6cd6, 0x413);
  (0x6cd7, 0x130417227325327229125330129230315);
  (0x6cdb, 0x200452152117125317227325327207107320115252132130156120);
  (0x6cde, 0x225413200);
  (0x6ce0, 0x427331227232162327);
  (0x6ce1, 0x125452225252152132227425325120315204332327220230256);
  (0x6ce2, 0x130156225125417227230127132327325252152425315330131129120329332229215115104220331320228232117);
  (0x6ce3, 0x252426115454325152215315220225256125227);
  (0x6ce5, 0x125225425325143252227231315327330215232115130220120152452331320332100);
  (0x6ce8, 0x152252452125315225325227215320232332220327331256104132156352);
  (0x6cea, 0x225125425252320120162315115325215220227);
  (0x6ceb, 0x413);
  (0x6cee, 0x227427127232327132);
  (0x6cef, 0x454152220327227);
  (0x6cf0, 0x232130417127227125327132330230129162315332229225331329115325131215231104320228120200);
  (0x6cf1, 0x115315262162327227);
  (0x6cf3, 0x256225325454125252227327220328331332330);
  (0x6cf5, 0x425225125232452227132304);
  (0x6cf7, 0x413);
  (0x6cf8, 0x130129132);
  (0x6cfa, 0x413327130);
  (0x6cfb, 0x252452125225152315320325425256220);
  (0x6cfc, 0x452200125100152252220143327315227362262320133115352325225132330);
  (0x6cfd, 0x327225227427325330127230125252426129232130229315215332);
  (0x6cfe, 0x130230115325330331);
  (0x6d01, 0x200227402162325100252327262320125115132220225232332215352152228315217331120);
  (0x6d04, 0x152413320327);
  (0x6d07, 0x452327);
  (0x6d0b, 0x225230125325402330232331204320315227427262362215152332130142327115252228404220162100117352256200120104132304);
  (0x6d0c, 0x413200327227);
  (0x6d0e, 0x227413);
  (0x6d12, 0x452200252152100138315215227120125362262327320);
  (0x6d17, 0x152452252125256132204325100227156115215120225320232220327352315117200332);
  (0x6d19, 0x227413327);
  (0x6d1b, 0x130330327417227127129329125230332325132229131331232115);
  (0x6d1e, 0x425225125227230152130327362262325200252115315330320117156220129352);
  (0x6d25, 0x230417330227331125327130315115229217117132252332220325215225362262320231131129127228);
  (0x6d27, 0x413227129327);
  (0x6d2a, 0x127125227327427130252256143100325132225426320330115120230417332128131229315331152228232);
  (0x6d2b, 0x225413);
  (0x6d2e, 0x130230125330);
  (0x6d31, 0x130325230330129);
  (0x6d32, 0x230225325331426227330435217104232332327125304229);
  (0x6d33, 0x459225327227);
  (0x6d35, 0x227413327);
  (0x6d39, 0x413227);
  (0x6d3b, 0x256156152425125200252325452225100107320207104215120162315117352343227115220327330143132356229400);
  (0x6d3c, 0x125200400225320220325227327230130232330203);
  (0x6d3d, 0x252152427125327227317156325402);
  (0x6d3e, 0x452225152125252227222204200325238256422232327132320129315220331130231228);
  (0x6d41, 0x225125152156452325252256330204315120320100200215227230115327238217104220130207342332304132331352162362232135117);
  (0x6d43, 0x315413327);
  (0x6d45, 0x400125104100225200252362127162215220227320152315327129130262156115328);
  (0x6d46, 0x225425125325252132152130256215452315227232);
  (0x6d47, 0x452152325315227125120100);
  (0x6d48, 0x413227327);
  (0x6d4a, 0x403200125252327227325402315225130203204132);
  (0x6d4b, 0x252256156152452325125132215227220229331217315225332327320);
  (0x6d4d, 0x413227);
  (0x6d4e, 0x225325130417320327227252331332454315200215230152220232330300328129132204125131127115317217229352304);
  (0x6d4f, 0x130152125156);
  (0x6d51, 0x125400100130225162262227115120362327252200315320);
  (0x6d52, 0x332225413227232130129327);
  (0x6d53, 0x100125400152162362325120115156104227262327315232304320330220132);
  (0x6d54, 0x417130230327227330);
  (0x6d59, 0x130417217131132232227327125331117);
  (0x6d5a, 0x426252227130327228);
  (0x6d5c, 0x230225132);
  (0x6d5e, 0x452227);
  (0x6d60, 0x413130227327);
  (0x6d63, 0x454125325327227);
  (0x6d66, 0x130230330131127417227427332217327232331117229129128132);
  (0x6d69, 0x227427330100402315327115125152130325320352162132120156232331228);
  (0x6d6a, 0x425225125232152100325252215315227320220132327332256120200330331115304230130229131);
  (0x6d6e, 0x452125152252156100120325200227127320130230115330315332327225256132232204215229);
  (0x6d6f, 0x413327130227);
  (0x6d74, 0x252125456225227454256332115152327217325156);
  (0x6d77, 0x125230425142225330130212227331127132327131252232325129332152242215156135117122315229342120320115256104217317328322204228220329128335);
  (0x6d78, 0x152452252225125156327132325362262320);
  (0x6d7c, 0x413);
  (0x6d82, 0x452200125152127225262315325215256252230362227229115330130327232132220156);
  (0x6d85, 0x426327227454330329229130129232230);
  (0x6d88, 0x125156152252452100325120104315220320117132331327227225);
  (0x6d89, 0x152252454156125325215320315227327256130220417115);
  (0x6d8c, 0x152452252125215225227220232315200327229130330230);
  (0x6d8e, 0x252315125325152115);
  (0x6d91, 0x413130);
  (0x6d93, 0x262162125327115227);
  (0x6d94, 0x413327330227362262);
  (0x6d95, 0x225426252315215125152115227);
  (0x6d9b, 0x227225427315320125327426228232);
  (0x6d9d, 0x225452252125320256327);
  (0x6d9e, 0x413130327227129);
  (0x6d9f, 0x130125262162362225);
  (0x6da0, 0x413);
  (0x6da1, 0x125225130320325);
  (0x6da3, 0x152315115);
  (0x6da4, 0x252125426325454327227256152315332132);
  (0x6da6, 0x225252452325200327227125152232156220130132331332230256215330362120262);
  (0x6da7, 0x426225227130327230229330);
  (0x6da8, 0x252452125152200117315156227327325220132320);
  (0x6da9, 0x200400252125215129152327130325);
  (0x6daa, 0x130129);
  (0x6dab, 0x413327227);
  (0x6dae, 0x452125252352152);
  (0x6daf, 0x225426215315320252227220332327);
  (0x6db2, 0x225125426156232252325220227132256315215332);
  (0x6db5, 0x225152125252227327454127256228325100);
  (0x6db8, 0x252115);
  (0x6dbf, 0x130125);
  (0x6dc0, 0x125252225230325330130256331320);
  (0x6dc4, 0x130230330329);
  (0x6dc5, 0x130362133162125);
  (0x6dc6, 0x252315152320);
  (0x6dc7, 0x413227325130327132332);
  (0x6dcb, 0x125452362262152115315320227156225215327220132325332100);
  (0x6dcc, 0x452252330327);
  (0x6dd1, 0x125200328315225129);
  (0x6dd6, 0x413330225227327125);
  (0x6dd8, 0x152452100125327320227325332132315);
  (0x6dd9, 0x233133);
  (0x6ddd, 0x413130);
  (0x6dde, 0x413327227330);
  (0x6de0, 0x413130);
  (0x6de1, 0x125400200162152262362104252315100225327227115220120143130320330117325203156);
  (0x6de4, 0x452152125252327225456320227220);
  (0x6de6, 0x427227327);
  (0x6deb, 0x100252402125315152200256332215156227220);
  (0x6dec, 0x156132152);
  (0x6dee, 0x130417217330227132327125230228317229129332131);
  (0x6df1, 0x400152130100125117142225107207131104132200115143252204227315120320215228327243332220307325229162362232129330);
  (0x6df3, 0x227402100229127132130327129330232);
  (0x6df7, 0x125156452152100104115252315120200132227332320217327225204117325162362);
  (0x6df9, 0x152452227225320125129252);
  (0x6dfb, 0x452252152125315227115156120327320228);
  (0x6dfc, 0x200215228);
  (0x6e05, 0x100400125143152252227327243156225130204162362131127220320343330117120115325200256315230132104129262215331228332229217203103232101328329);
  (0x6e0a, 0x227426125327225100320230330315220215328127229228115);
  (0x6e0c, 0x413262362227327);
  (0x6e0d, 0x452225252352125325);
  (0x6e0e, 0x252156152330125);
  (0x6e10, 0x207407107152125227315327115320215220228);
  (0x6e11, 0x130413);
  (0x6e14, 0x125417217227426317115327252331215330325225315120320130332152454228);
  (0x6e17, 0x152452125252325227232332156132117256);
  (0x6e1a, 0x413230330327227130);
  (0x6e1d, 0x417227131130332215220217327129);
  (0x6e20, 0x125425225227230127315325130327330152232);
  (0x6e21, 0x252452152125325227225327130230330132256332232315320127229228220129329);
  (0x6e23, 0x225425131132125325130227331232327);
  (0x6e24, 0x125130330317);
  (0x6e25, 0x130200331);
  (0x6e29, 0x125225452100127252103130227325327232200115320152162129204332330120426362229117217230331315220104131132317);
  (0x6e2b, 0x413);
  (0x6e2d, 0x130228315229330230);
  (0x6e2f, 0x230125417225122322331325330227117332238232252130327217317104132220120304);
  (0x6e32, 0x152454227327);
  (0x6e34, 0x152400252225215200220452315327227156);
  (0x6e38, 0x125225452256152212325156252127104227217320115331330232352315120230220327332215229317);
  (0x6e3a, 0x100402200215115315120227262327);
  (0x6e43, 0x252459215227327220200);
  (0x6e44, 0x130125129);
  (0x6e4d, 0x402125100227225327);
  (0x6e4e, 0x459252315);
  (0x6e53, 0x413);
  (0x6e54, 0x413);
  (0x6e56, 0x130230125425225227142132330325327131332115220212315252317217331320232215104117229120);
  (0x6e58, 0x417130117327227230125131132217332330331);
  (0x6e5b, 0x130200127162227427327417331229362330);
  (0x6e5f, 0x130413227327);
  (0x6e6b, 0x413232227327);
  (0x6e6e, 0x152115);
  (0x6e7e, 0x230225452330227332331130125327435325232229242129304);
  (0x6e7f, 0x152400125200452252225100325162320329262204227232362220332104317);
  (0x6e83, 0x252152454125325115215);
  (0x6e85, 0x452252152327);
  (0x6e86, 0x413130327227);
  (0x6e89, 0x256454252325220);
  (0x6e8f, 0x413220);
  (0x6e90, 0x225426152125227325352230252220232327115330315331332304215229204107207129132256228231217130328317);
  (0x6e98, 0x115);
  (0x6e9c, 0x452362262222152307225200162435252320115327227233125325220315);
  (0x6e9f, 0x413227327);
  (0x6ea2, 0x125252452152227120220327256215325320);
  (0x6ea5, 0x227127327427);
  (0x6ea7, 0x130413);
  (0x6eaa, 0x425227230125225327330130229232332325426142331);
  (0x6eaf, 0x252454152320227327315332256);
  (0x6eb1, 0x413);
  (0x6eb2, 0x413);
  (0x6eb4, 0x426125132332);
  (0x6eb6, 0x125152452325227225252320332232327262162204);
  (0x6eb7, 0x413100);
  (0x6eba, 0x454152252125225);
  (0x6ebd, 0x125100);
  (0x6ec1, 0x130125);
  (0x6ec2, 0x320100125);
  (0x6ec7, 0x417130129117125227327132);
  (0x6ecb, 0x152125325452362262320227230327156120129232330132);
  (0x6ecf, 0x130413227);
  (0x6ed1, 0x252452152125200325100156127256130225120262132315162332227215327220320115330);
  (0x6ed3, 0x413225330327);
  (0x6ed4, 0x162262315227115454327120125320);
  (0x6ed5, 0x127427227327332125130329229330);
  (0x6ed7, 0x452);
  (0x6eda, 0x452152162262125252315120320225156325104132362220115327227);
  (0x6ede, 0x252152454125200315325256225156);
  (0x6edf, 0x220262459);
  (0x6ee0, 0x413);
  (0x6ee1, 0x400152252200125130107127132227327315320115120162362104330325217215143100225243332230117207331262128352228);
  (0x6ee2, 0x227413327);
  (0x6ee4, 0x452252125325152132332225227129);
  (0x6ee5, 0x252152401400315220125120115215225320352156);
  (0x6ee6, 0x130417230320331327129330227317);
  (0x6ee8, 0x125230225426130330227327331332242127325229);
  (0x6ee9, 0x225426125230227252327325331330229332232);
  (0x6ef4, 0x452125225222152133215435325162115362262322333422227315130120332156220132356320327);
  (0x6ef9, 0x130);
  (0x6f02, 0x100152452125225227362162115200156132327325315);
  (0x6f06, 0x225425162125127452362262232115215252325315332229);
  (0x6f09, 0x262362452);
  (0x6f0f, 0x452252125152225132215120256115315156317352143325232);
  (0x6f13, 0x252315130215220417227200);
  (0x6f14, 0x152252125256225452156325320332327227215232331328117);
  (0x6f15, 0x152125130330);
  (0x6f20, 0x225230125200162130352252152325262115356120156228);
  (0x6f24, 0x452);
  (0x6f29, 0x125);
  (0x6f2a, 0x327225413227125);
  (0x6f2b, 0x100200325252452125225115152162156327220227262215120320130104332330);
  (0x6f2d, 0x459);
  (0x6f2f, 0x130);
  (0x6f31, 0x452252152327325227125332);
  (0x6f33, 0x130417230132330227125327);
  (0x6f36, 0x252459);
  (0x6f3e, 0x252452227130327);
  (0x6f46, 0x459327);
  (0x6f47, 0x100130227327162262417362131115);
  (0x6f4b, 0x320162459227);
  (0x6f4d, 0x130);
  (0x6f58, 0x127427227130327229132128129330225125230329332);
  (0x6f5c, 0x125452152104325256227107252130143156327115332132315120331);
  (0x6f5e, 0x413132130327227);
  (0x6f62, 0x413225130227320327252);
  (0x6f66, 0x100315320);
  (0x6f6d, 0x425230225330227125327315229332130331325215220);
  (0x6f6e, 0x225425125227100130252152325327215320315332231120129232230156162352331228220);
  (0x6f72, 0x452125);
  (0x6f74, 0x152130);
  (0x6f78, 0x115162262327227);
  (0x6f7a, 0x262162233115133315);
  (0x6f7c, 0x130230330413229227327);
  (0x6f84, 0x152452227130327100362262162417132129200);
  (0x6f88, 0x200413262320227327);
  (0x6f89, 0x130413);
  (0x6f8c, 0x413327227);
  (0x6f8d, 0x227327413);
  (0x6f8e, 0x130152125315227417327427320);
  (0x6f9c, 0x130225215228320315232227200325);
  (0x6fa1, 0x252426125325225332454);
  (0x6fa7, 0x130417227230327);
  (0x6fb3, 0x130417125217131230330322132135227317122327329117129232229331);
  (0x6fb6, 0x413130227);
  (0x6fb9, 0x127100);
  (0x6fc0, 0x252100125152325452315320120200156227115220327225132256332304);
  (0x6fc2, 0x413227327);
  (0x6fc9, 0x413130227);
  (0x6fd1, 0x130127229129230);
  (0x6fd2, 0x152454156104227327125);
  (0x6fde, 0x459227230);
  (0x6fe0, 0x413227327130131);
  (0x6fe1, 0x454315152327227);
  (0x6fee, 0x130427127327227);
  (0x6fef, 0x454252152327132);
  (0x7011, 0x125426225330227327);
  (0x701a, 0x227200125327413262315);
  (0x701b, 0x413327227130225125132);
  (0x7023, 0x315225);
  (0x7035, 0x413);
  (0x7039, 0x413);
  (0x704c, 0x125156452152252225327227320130325117129315317120256104132332);
  (0x704f, 0x413227327);
  (0x705e, 0x459130);
  (0x706b, 0x125425225252100325315152162320200107104215117115227204256130220120229327332330362262131132331232143300127128156230352217317);
  (0x706d, 0x252452152325215227115315125220256352320232);
  (0x706f, 0x225125425252315325227256143232115130332327230320215220132);
  (0x7070, 0x125425325225162315402115152400320215227204332252220132200327217330100);
  (0x7075, 0x125100225400227127130327200252325115230330215315129152320362262232229220104332156228132329);
  (0x7076, 0x425225125252215227330327220);
  (0x7078, 0x225413325227);
  (0x707c, 0x454162200152262125256325315227252402327);
  (0x707e, 0x125425225320256315252325215220120227);
  (0x707f, 0x100227402362262315327115132120220320162);
  (0x7080, 0x327129413227);
  (0x7085, 0x413227327);
  (0x7089, 0x225425125252132232227325115315220142327426130);
  (0x708a, 0x125454225215252120);
  (0x708e, 0x225426125100227327252129256232419262162315117325130132320120);
  (0x7092, 0x152452252125156225227325120327);
  (0x7094, 0x225125332);
  (0x7095, 0x425125225142327252);
  (0x7096, 0x452125252152132);
  (0x7099, 0x315115100252152215);
  (0x709c, 0x227427327);
  (0x709d, 0x452);
  (0x70ab, 0x152454100227327125132);
  (0x70ac, 0x225332413215327227325315);
  (0x70ad, 0x225425125325343252215152331132330130220332);
  (0x70ae, 0x225125425227252152220325452217130331320315115215156330);
  (0x70af, 0x315262162228115215);
  (0x70b1, 0x413);
  (0x70b3, 0x227327413130252315328);
  (0x70b7, 0x435227);
  (0x70b8, 0x252125452325152320225215304256227327);
  (0x70b9, 0x225422222435152207125322352252256224307325315227327220215320331120324115122135232132304104338362262243204156200332217235);
  (0x70bb, 0x459125);
  (0x70bc, 0x252152452125156325227200256215117232327315332132331115220);
  (0x70bd, 0x100325402227200327204);
  (0x70c0, 0x452);
  (0x70c1, 0x252402362262413315227327);
  (0x70c2, 0x452252200400225125315262162215152362320327220325115227100132256120352);
  (0x70c3, 0x225425125227327);
  (0x70c8, 0x200400125227215315220225327201230104329162262204320330325132120115228252);
  (0x70ca, 0x459252327227);
  (0x70d8, 0x452152362262125320200227156115327);
  (0x70d9, 0x125452225227325327);
  (0x70db, 0x225426125252227152215315327320156);
  (0x70df, 0x125425225252325130315320115227132207256232327215152120204131332162220331317);
  (0x70e4, 0x452125252152325330256232132);
  (0x70e6, 0x100452203200252220315103215152125227325320327156400230330);
  (0x70e7, 0x452252152125325225315330204156215100220120327320132256);
  (0x70e8, 0x227427327);
  (0x70e9, 0x125452225327227);
  (0x70eb, 0x452262152100252225104204125220327);
  (0x70ec, 0x225220413227);
  (0x70ed, 0x125400100252325200152225262162120130115352215256320330156362220132315332101327129232229227104304203230329117204317356127);
  (0x70ef, 0x225459125325332232227327132);
  (0x70f7, 0x225125425232227327325332132);
  (0x70f9, 0x152452156125331215320132315227);
  (0x70fd, 0x125230330115228);
  (0x7109, 0x452130215227315115327460220438);
  (0x710a, 0x152452125225256156325204232132252227320);
  (0x7110, 0x452);
  (0x7113, 0x413227327);
  (0x7115, 0x227454152327315115162402328);
  (0x7116, 0x452252227125);
  (0x7118, 0x227427);
  (0x7119, 0x452152252327132227125);
  (0x711a, 0x152454252125215115227327120220156);
  (0x7126, 0x125100400127130252225256325115135200162152156227427417327232132426131320215315);
  (0x712f, 0x452227327);
  (0x7130, 0x225125325228220315227);
  (0x7131, 0x413227327);
  (0x7136, 0x207206106201325204200320438315262215227225252306220332343327331330238352253228229406232362);
  (0x7145, 0x452152);
  (0x714a, 0x227459100327);
  (0x714c, 0x230200402413215227325330327331);
  (0x714e, 0x452152252156125325362262225132327320);
  (0x715c, 0x228);
  (0x715e, 0x452162120125115215152252409225315327227);
  (0x7164, 0x125425225117252217325132332256331152227131232130);
  (0x7166, 0x227327427200362262100);
  (0x7167, 0x234152452125252225107325227327217315320330215156220332104115256120132);
  (0x7168, 0x452227);
  (0x716e, 0x452152252327227315332);
  (0x7172, 0x452225125232);
  (0x7173, 0x400227);
  (0x7178, 0x452125252);
  (0x717a, 0x452);
  (0x717d, 0x152100120125156);
  (0x7184, 0x152452125320225325156252327);
  (0x718a, 0x127425125225325262162227327229315130115232320332252131331132);
  (0x718f, 0x452156152252320125227132232327);
  (0x7194, 0x125152452225120327156252227325232132320);
  (0x7198, 0x452327);
  (0x7199, 0x225232132115315328229228243162227127125330331);
  (0x719f, 0x200152400452125100252315230325225215262220227115320120330256204332);
  (0x71a0, 0x262162115315327227);
  (0x71a8, 0x452152325125100327);
  (0x71ac, 0x452252152200256227);
  (0x71b3, 0x459200227);
  (0x71b5, 0x413225227);
  (0x71b9, 0x227132129100232);
  (0x71c3, 0x125152252454325204115200320215227332256327232117304);
  (0x71ce, 0x452215152220120125262320227327);
  (0x71d4, 0x413);
  (0x71d5, 0x127130427125227132327225131315426229325228115230120);
  (0x71e0, 0x100402227);
  (0x71e5, 0x200402100225125227220332325315215);
  (0x71e7, 0x225125129228);
  (0x71ee, 0x227413327);
  (0x71f9, 0x225413);
  (0x7206, 0x152200125452252156325232332204104220225256362262217227120327);
  (0x721d, 0x459);
  (0x7228, 0x413227);
  (0x722a, 0x426130125225215227329325332330);
  (0x722c, 0x452152125252320215325120156);
  (0x7230, 0x413227327);
  (0x7231, 0x452125252327100200127152130225227132204129115330156220131256215120331300320315362262217229232325332329143128);
  (0x7235, 0x225227426125252327215);
  (0x7236, 0x125225426238227104325252327229320120117317315215143232332230115);
  (0x7237, 0x225426227125325327330138320);
  (0x7238, 0x225125425227327);
  (0x7239, 0x425225125227327);
  (0x723b, 0x413125227225);
  (0x723d, 0x200100427227215132327252125262156362320129300115107325304402);
  (0x723f, 0x435227327);
  (0x7247, 0x225222435122125332252325100104422232238331322220142132315256115362262204320107127215327227230304152135352129);
  (0x7248, 0x252425125325225331330256204238320130232220324132);
  (0x724c, 0x225252425125204232325220215227331217356320229130330);
  (0x724d, 0x225413215325315);
  (0x7252, 0x413225220227);
  (0x7256, 0x413225);
  (0x7259, 0x230425125225330325252227315332130320331215220156232229132152131200120115);
  (0x725b, 0x425125127225330252325227130232135131315327115230143332331320352120129132215220100231243256128317);
  (0x725d, 0x125);
  (0x725f, 0x127427230152325330120227130454327128);
  (0x7261, 0x125130327120132131);
  (0x7262, 0x400100207107125252225152352330227215327325200315115101426);
  (0x7266, 0x125132);
  (0x7267, 0x125325252417225127217227317427327152256332454156230331426352);
  (0x7269, 0x225125325426220252120330217320231215238152227332331115315132232327229117204156317);
  (0x726e, 0x413);
  (0x726f, 0x125325);
  (0x7272, 0x252125325225215220343332);
  (0x7275, 0x152452125156132115227315100120252320215101);
  (0x7279, 0x125107227100407104229327200330230127152325129232329332225320130331117235162132304156317315115120131224217222231);
  (0x727a, 0x152125315320117);
  (0x727e, 0x454252);
  (0x7280, 0x125426100225227325315327115);
  (0x7281, 0x425230330125227152325225452132327115252228);
  (0x7284, 0x125);
  (0x728a, 0x426225125220325320315);
  (0x728b, 0x435);
  (0x728d, 0x130125);
  (0x728f, 0x459);
  (0x7292, 0x152125);
  (0x729f, 0x400200125152227);
  (0x72ac, 0x426225125325227315115215320220);
  (0x72af, 0x452156252225152125215207325315120320115227220256);
  (0x72b0, 0x125);
  (0x72b4, 0x227225459);
  (0x72b6, 0x125225426325320232252204227215152327220332256132131);
  (0x72b7, 0x200100);
  (0x72b8, 0x325225459);
  (0x72b9, 0x100152407125132320315115130120362162229227330327325252131103);
  (0x72c1, 0x459);
  (0x72c2, 0x200407125100152115215315252120156225325320220103227232327201);
  (0x72c3, 0x413);
  (0x72c4, 0x127427227327426330332129);
  (0x72c8, 0x201203459315);
  (0x72cd, 0x125);
  (0x72ce, 0x152100);
  (0x72d0, 0x125427232152426225115327325315227252331);
  (0x72d2, 0x125225);
  (0x72d7, 0x425125225227327315115215120127132325152252220232320243332143130);
  (0x72d9, 0x152125);
  (0x72de, 0x200152220100320227);
  (0x72e0, 0x407107207362262100200152103252315320307101162215400);
  (0x72e1, 0x100153115125152);
  (0x72e9, 0x125232152129);
  (0x72ec, 0x152100125207107407115400315200156327104130120117101132320127325227206217252330230129352215331328);
  (0x72ed, 0x100104402162200125115);
  (0x72ee, 0x125425225130327230227426325232252332330129120315256);
  (0x72ef, 0x200413);
  (0x72f0, 0x100320120327);
  (0x72f1, 0x225252426142125256215325231315230);
  (0x72f2, 0x459225320);
  (0x72f3, 0x225);
  (0x72f4, 0x125459);
  (0x72f7, 0x459);
  (0x72f8, 0x225125325315227327);
  (0x72fa, 0x459);
  (0x72fb, 0x459327125);
  (0x72fc, 0x425225125115101227315325103130100230320327232330);
  (0x7301, 0x225459);
  (0x7303, 0x413);
  (0x730a, 0x225227459);
  (0x730e, 0x125252225426152325454227256327131156315220320);
  (0x7315, 0x125);
  (0x7316, 0x100101);
  (0x7317, 0x460230330410129327227);
  (0x731b, 0x407107200100152125227400315320143101201327225156130352203131);
  (0x731c, 0x452152156252332227215315120229256);
  (0x731d, 0x115152262107409125);
  (0x731e, 0x125);
  (0x7321, 0x459);
  (0x7322, 0x125320120);
  (0x7325, 0x152103200);
  (0x7329, 0x225125162325327227);
  (0x732a, 0x425125225252325227132332327315320120243143117);
  (0x732b, 0x425225125452227232130327320152120315325115331);
  (0x732c, 0x225413);
  (0x732e, 0x225452327152252325227129125130331215315352320120);
  (0x7331, 0x413);
  (0x7334, 0x426125225132325327227252315120215243143320115352130);
  (0x7337, 0x227413327);
  (0x733e, 0x200215413);
  (0x733f, 0x426225125227325315215);
  (0x734d, 0x413);
  (0x7350, 0x125115325);
  (0x7352, 0x413227);
  (0x7357, 0x200459);
  (0x7360, 0x125315);
  (0x736c, 0x459125);
  (0x736d, 0x225413325);
  (0x736f, 0x459132);
  (0x737e, 0x413225125);
  (0x7384, 0x127327400125227130100315328215115225325);
  (0x7387, 0x225452152107232252200204227325327217220100320207201332125120115315256);
  (0x7389, 0x227125327425127130225132315215115229232129152325328330120230329228320217331332);
  (0x738b, 0x127427125225229227327232325128252130330331320315230215120332220115228129132117328343143);
  (0x738e, 0x459);
  (0x7391, 0x225227413232215327);
  (0x7396, 0x422227122327222);
  (0x739b, 0x227127427327330125130229129132325232230332329331);
  (0x73a2, 0x459327227);
  (0x73a9, 0x452125152352252225115200315332300227325120327132156);
  (0x73ab, 0x125327132225);
  (0x73ae, 0x427227327228200);
  (0x73af, 0x125117452256225152320227230325130132204215327330332232331120242317143304220131315228);
  (0x73b0, 0x252143125444152142156104107325215256317227320115327304217262131331220315330100352332120225);
  (0x73b2, 0x227327100427315115228);
  (0x73b3, 0x125325);
  (0x73b7, 0x152);
  (0x73ba, 0x227426225125327228);
  (0x73bb, 0x125417130325129120320331132332227117131156);
  (0x73c0, 0x225229129325130132330329125);
  (0x73c2, 0x228);
  (0x73c8, 0x413225229330327227);
  (0x73c9, 0x227427);
  (0x73ca, 0x125230332252228327329129229325215330115315);
  (0x73cd, 0x227100125152426204327130454320225132115325215315129229200156304228232);
  (0x73cf, 0x227327413);
  (0x73d0, 0x125);
  (0x73d1, 0x200215315459227);
  (0x73d9, 0x125413227130327);
  (0x73de, 0x132225129130);
  (0x73e0, 0x225426130125227325132417117232327330332215331115231230315304220320217229131228);
  (0x73e5, 0x225413);
  (0x73e7, 0x327413227325);
  (0x73e9, 0x227413152132);
  (0x73ed, 0x330425125252225325127222256227332142320132152232327230130422215229129331238143217115117120204253329100);
  (0x73ee, 0x327);
  (0x73f2, 0x413130227);
  (0x7403, 0x225125425325252356227331332330232230256327217120220231132352343);
  (0x7405, 0x225315130115228325362162);
  (0x7406, 0x225125256252325152200425331320452227215230220115315327332217317229304330238120156129356127207352130132201100107232131300228117104);
  (0x7409, 0x125130132327325);
  (0x740a, 0x413);
  (0x740f, 0x227413327225);
  (0x7410, 0x200402100125203227327);
  (0x741a, 0x427227);
  (0x741b, 0x413227230327130);
  (0x7422, 0x152452252327227215120352315);
  (0x7425, 0x125);
  (0x7426, 0x327227427232);
  (0x7428, 0x227413327);
  (0x742a, 0x227327413325115315228229);
  (0x742c, 0x227413327);
  (0x742e, 0x227413327);
  (0x7430, 0x227413327);
  (0x7433, 0x227229129327427115330332125230329228);
  (0x7434, 0x225425227125325330252327232129115215230220320130228315329128229235);
  (0x7435, 0x125130320);
  (0x7436, 0x225459325330320);
  (0x743c, 0x332227417130129427132327125426115127330315229325);
  (0x7441, 0x227225459);
  (0x7455, 0x125262332215115225);
  (0x7457, 0x227413);
  (0x7459, 0x225330125229129325230329);
  (0x745a, 0x225325232459227125327);
  (0x745b, 0x227327413);
  (0x745c, 0x227427125327320228215315);
  (0x745e, 0x130227417327127117330232125131129132332229200331426325329225228135252);
  (0x745f, 0x426227327262229329162325152225129232330215230130);
  (0x746d, 0x227413327);
  (0x7470, 0x225325162125227100);
  (0x7476, 0x227417327125132330130315115);
  (0x7477, 0x459327227);
  (0x747e, 0x227427327);
  (0x7480, 0x162120320);
  (0x7481, 0x413227327);
  (0x7483, 0x225325320330220231332459227232);
  (0x7487, 0x413227327125228);
  (0x748b, 0x227413327252);
  (0x748e, 0x125);
  (0x7490, 0x227427325327);
  (0x749c, 0x227427327225229);
  (0x749e, 0x427227426125327315);
  (0x74a7, 0x225315230228215252130330);
  (0x74a8, 0x262320413220227);
  (0x74a9, 0x227427127327);
  (0x74ba, 0x425);
  (0x74d2, 0x227427327);
  (0x74dc, 0x225425125152330325230130129315215327115227132332331329229320);
  (0x74de, 0x413);
  (0x74e0, 0x413125227);
  (0x74e2, 0x425222125115225320152215227435220);
  (0x74e3, 0x225435426125325204320);
  (0x74e4, 0x426125225325);
  (0x74e6, 0x222425127327125230330227152129225229235325329322422130315335332232132135452331162215320435115252);
  (0x74ee, 0x425130120320225115215327);
  (0x74ef, 0x417225130230227125330);
  (0x74f4, 0x413215);
  (0x74f6, 0x425125225222325104215227422238320252330332327232);
  (0x74f7, 0x225125426325232227220104100132327);
  (0x74ff, 0x413);
  (0x7504, 0x127152427227327156);
  (0x750d, 0x413);
  (0x750f, 0x426);
  (0x7511, 0x427227125);
  (0x7513, 0x413);
  (0x7518, 0x130125127152427315417252330129217454227320327100325317132115401256332200104229331131120117);
  (0x7519, 0x413232225);
  (0x751a, 0x107409138162152315320106200227306207215115104245125327);
  (0x751c, 0x125400227100200162362327115315220225215132104);
  (0x751f, 0x156252125225152452325227204120203320331315100215352256327127207200143115232343222332117229362262220107243217304317104238228330132230307322300);
  (0x7525, 0x225325125);
  (0x7528, 0x252434225152256125325204200207220107120156320327227230331231215232315238100115352332132328317356304131);
  (0x7529, 0x452152125120227132156);
  (0x752b, 0x227407327225230232332329129328);
  (0x752c, 0x125417130327330227117132);
  (0x752d, 0x452407106152227);
  (0x7530, 0x425127225125227230327232252330320231130128142332325331229129120215220152217315117131228356156329);
  (0x7531, 0x434106200225107325307127315252207327120234125320331220356227352115304330332228128);
  (0x7532, 0x425125204225325227132327230122120332104252330452315422220423215322217130232129320131143117331128);
  (0x7533, 0x152127452132252227125327222215156325130322232230131143417129332329128117217);
  (0x7535, 0x125425225325252217256331156332104352320120232204152220132117317315231304227327115129330356131130143);
  (0x7537, 0x125404227115120320325225117315327331152104332131);
  (0x7538, 0x230225362262325125330228331229130332);
  (0x753a, 0x230330127130);
  (0x753b, 0x225452125252325152315115331227215327320220120132352304232256142204330);
  (0x753e, 0x413125325332);
  (0x7540, 0x413);
  (0x7545, 0x200400100152115227127125252315101330162120156327228320215);
  (0x7548, 0x435227);
  (0x754b, 0x227413152);
  (0x754c, 0x225425332325125320238129331252132419152204227232230304215327217142220130330104256);
  (0x754e, 0x413);
  (0x754f, 0x454152252315100215227115220352256225327125204);
  (0x7554, 0x225426230227242327);
  (0x7559, 0x152252452256125325327227320343130315156215120115230204330129225331132);
  (0x755a, 0x125);
  (0x755b, 0x413125327227);
  (0x755c, 0x125225426217325252425152232132315227);
  (0x7565, 0x225407252152325107256227207201200125330215115315327229230130120320220129329);
  (0x7566, 0x435426225227125);
  (0x756a, 0x222435125130230207252243325315330220227215327322132331422);
  (0x7572, 0x417132330227);
  (0x7574, 0x227225413143327315);
  (0x7578, 0x125426252152115315);
  (0x7579, 0x130);
  (0x757f, 0x413125232227229330327);
  (0x7583, 0x413227);
  (0x7586, 0x230125242330225227417331215325315332252327217320220);
  (0x758b, 0x413);
  (0x758f, 0x152456454200225125100156227130315120262215325115317362162327252117220129132);
  (0x7591, 0x252207125200152325454320215426225220362262227315256115120327203);
  (0x7594, 0x225);
  (0x7596, 0x125);
  (0x7597, 0x252225125325152454256320220217332);
  (0x7599, 0x125320325362162327315);
  (0x759a, 0x200413203201325);
  (0x759d, 0x125);
  (0x759f, 0x125225325);
  (0x75a0, 0x225413);
  (0x75a1, 0x225413325);
  (0x75a3, 0x413225125);
  (0x75a4, 0x425225125252);
  (0x75a5, 0x125315);
  (0x75ab, 0x125256252325225426220331);
  (0x75ac, 0x225459);
  (0x75ae, 0x225425125315115215325332);
  (0x75af, 0x100452125252152327162362220320315225325);
  (0x75b0, 0x125);
  (0x75b1, 0x125225425325);
  (0x75b2, 0x100400152315120125115215101);
  (0x75b3, 0x125225);
  (0x75b4, 0x225413);
  (0x75b5, 0x225125215);
  (0x75b8, 0x225459);
  (0x75b9, 0x225125352325);
  (0x75bc, 0x125452252400200152100262315325362220103156);
  (0x75bd, 0x225413);
  (0x75be, 0x125426325225152315227320107115262215409101331332402);
  (0x75c2, 0x425252225227);
  (0x75c3, 0x459225);
  (0x75c4, 0x125);
  (0x75c5, 0x225125425252152325238315256227207156117220115100215317120162217320132362331104);
  (0x75c7, 0x225125426252232215220315217332);
  (0x75c8, 0x125315);
  (0x75c9, 0x156125325);
  (0x75ca, 0x152);
  (0x75cd, 0x315225215413);
  (0x75d2, 0x400200252100215225262220320162);
  (0x75d4, 0x125225132);
  (0x75d5, 0x125225426320227);
  (0x75d6, 0x413);
  (0x75d8, 0x225125252232325);
  (0x75db, 0x225103400200152100252125315115256325162362207220120215107320227156203332);
  (0x75de, 0x125225325);
  (0x75e2, 0x125325225);
  (0x75e3, 0x425225);
  (0x75e4, 0x125);
  (0x75e6, 0x125);
  (0x75e7, 0x256225252);
  (0x75e8, 0x125225);
  (0x75ea, 0x252459);
  (0x75eb, 0x225459325332);
  (0x75f0, 0x425252225125325115132);
  (0x75f1, 0x125);
  (0x75f4, 0x400162125152225362115215127262100315252227325320156327200401120);
  (0x75f9, 0x252426315256200225125325);
  (0x75fc, 0x125);
  (0x75ff, 0x252413125);
  (0x7600, 0x413220225125252325);
  (0x7601, 0x215454252200);
  (0x7605, 0x459);
  (0x760a, 0x125);
  (0x760c, 0x225325125);
  (0x7610, 0x459);
  (0x7615, 0x413);
  (0x7617, 0x413);
  (0x7618, 0x413225125);
  (0x7619, 0x100413);
  (0x761b, 0x459);
  (0x761f, 0x125452225325362);
  (0x7620, 0x200402100352);
  (0x7622, 0x125);
  (0x7624, 0x225425220325125227426331);
  (0x7626, 0x400100200125162262215362132225120315130104327220);
  (0x7629, 0x225220262362325459215227);
  (0x762a, 0x400200125362162152262252);
  (0x762b, 0x152452225252125256);
  (0x7630, 0x125);
  (0x7633, 0x427);
  (0x7634, 0x315125225);
  (0x7635, 0x413);
  (0x7638, 0x452125);
  (0x763c, 0x413);
  (0x763e, 0x425225252200325125220);
  (0x763f, 0x413225227325);
  (0x7640, 0x232459);
  (0x7643, 0x125413);
  (0x764c, 0x225125425256252325331);
  (0x764d, 0x425);
  (0x7654, 0x125132);
  (0x7656, 0x426225125);
  (0x765c, 0x325225413);
  (0x765e, 0x125120);
  (0x7663, 0x225425115);
  (0x766b, 0x125227100454252362262325132);
  (0x766f, 0x413200);
  (0x7678, 0x423122227132327322);
  (0x767b, 0x152452252125327227156130107132229230129315330200120232115215331325225329320362262);
  (0x767d, 0x125127252400325225130262143227200327330162132152220362204320115230107315207215331100129128104120232228256229332201131342352156);
  (0x767e, 0x322125122222325422327315115132130320120107232104332217227215317331220124330131117127224);
  (0x7682, 0x225125320325152315130132);
  (0x7684, 0x448238225262245207145220107320325232228330306252204125227130327215315307120332200);
  (0x7686, 0x407315227327115320129);
  (0x7687, 0x125426225327227330130331325201215232132315127200329256100115320207152362230262128229131);
  (0x7688, 0x152325);
  (0x768b, 0x227230413130327330129228220);
  (0x768e, 0x162);
  (0x7691, 0x262162215315362);
  (0x7693, 0x228132315115125100);
  (0x7696, 0x417130125132217227117327330331);
  (0x7699, 0x227262413327);
  (0x76a4, 0x413227);
  (0x76ae, 0x125225425127325200320252327112220227129315115232215120229329204130330100230332352132256);
  (0x76b1, 0x225452125425152227162215232362252315);
  (0x76b2, 0x152);
  (0x76b4, 0x425452152125);
  (0x76bf, 0x225459227327);
  (0x76c2, 0x225413327130);
  (0x76c5, 0x435225426227125);
  (0x76c6, 0x125225330425435222343230130220227315327262320252325152232);
  (0x76c8, 0x125325454327227200220320262152252162362132130104215225315304232256332);
  (0x76ca, 0x225325207252227127352200427327125130315132256220215107426320129152409120230454217332330262232115328343);
  (0x76cd, 0x413);
  (0x76ce, 0x135162132322320122315);
  (0x76cf, 0x435222225325232422327);
  (0x76d0, 0x425125225130325117252232227152330320327132215129315156);
  (0x76d1, 0x156225125317417152327227331325426454130217117252256332132115131330);
  (0x76d2, 0x225435125222426104422325232327238);
  (0x76d4, 0x225125315132);
  (0x76d6, 0x452252225325127125227152315129327130228230229220330115320128132256232);
  (0x76d7, 0x454152225125256156252215315325120332115);
  (0x76d8, 0x225435252325152125142222330127227207130156256315327320232422129215115100230220332229132143);
  (0x76db, 0x452152200125127227232330104327262130143320204115331252120132315325332215220128229230129328);
  (0x76df, 0x225217125325425252230231331220227426215332330256232152327315356);
  (0x76e5, 0x104125152);
  (0x76ee, 0x143225125426315215252152201115222200227325220320230330422253327120435204232256229130156);
  (0x76ef, 0x452152262362);
  (0x76f1, 0x130);
  (0x76f2, 0x125101426225100252325152454117115327156331);
  (0x76f4, 0x207101407152125252104130200315100227162115217262156327325120362132330320225131107215230117129232317331352304204);
  (0x76f8, 0x152107407100225207125315120252327227127115320325204306106200130232215330156256220132328332229);
  (0x76f9, 0x426252125352);
  (0x76fc, 0x452152252127227215125327315320232132256);
  (0x76fe, 0x203435125225227220215325332422222232330327);
  (0x7701, 0x230425125225238331217252152104117142330100227231315229352215115132327325156317256120328220320200332);
  (0x7704, 0x454);
  (0x7707, 0x413227);
  (0x7708, 0x215315459);
  (0x7709, 0x125425227315225115330252352230327320130142215325220);
  (0x770b, 0x452152252245125200220215320120156206315306352115227327225);
  (0x770d, 0x452);
  (0x7719, 0x230330413);
  (0x771a, 0x426);
  (0x771f, 0x107407125100201227252327200325127232207320315115225120204215332132206362129104256229262220162307330152300331131228329);
  (0x7720, 0x252454256325227220343320215230225130327228332125115);
  (0x7722, 0x413);
  (0x7726, 0x413315252);
  (0x7728, 0x452152315120);
  (0x7729, 0x152454215252125315220227);
  (0x772c, 0x252);
  (0x772d, 0x427327);
  (0x772f, 0x452362262152227327);
  (0x7735, 0x413225);
  (0x7736, 0x225426220315252);
  (0x7737, 0x225125152156315215);
  (0x7738, 0x125225252315);
  (0x773a, 0x152252454227327215);
  (0x773c, 0x125425143222225142207152252200320325315107220352215343120115100132227327332243422300330204104331);
  (0x7740, 0x451252234206152220100200320107125222225238207352325315260201160245422215332327156162362);
  (0x7741, 0x452207307125215327315227);
  (0x7743, 0x452);
  (0x7747, 0x454252);
  (0x7750, 0x252320413227);
  (0x7751, 0x225413125);
  (0x775a, 0x115152413129);
  (0x775b, 0x225215207426227327232125320);
  (0x7761, 0x452152252125256156220227132115325);
  (0x7762, 0x427130227252459);
  (0x7763, 0x225256332454152325125331227156327217232);
  (0x7765, 0x115459120);
  (0x7766, 0x402200125327120315227220362215256262332);
  (0x7768, 0x454252315320);
  (0x776b, 0x125215325132225);
  (0x776c, 0x252452256327215);
  (0x7779, 0x252215452220115454320315325327);
  (0x777d, 0x215315413);
  (0x777e, 0x125225325332);
  (0x777f, 0x100228129329320);
  (0x7780, 0x413);
  (0x7784, 0x152452132125227);
  (0x7785, 0x452152227327315);
  (0x778c, 0x152352125);
  (0x778d, 0x413);
  (0x778e, 0x452327125152315320325225456252120);
  (0x7791, 0x152315);
  (0x7792, 0x452252320152115315);
  (0x779f, 0x452152);
  (0x77a0, 0x120152115);
  (0x77a2, 0x413);
  (0x77a5, 0x452152225435456);
  (0x77a7, 0x452152252220227300);
  (0x77a9, 0x152315320215);
  (0x77aa, 0x452315152362262325352200);
  (0x77ac, 0x143322243115320315343207107120125);
  (0x77ad, 0x152125);
  (0x77b0, 0x252413325);
  (0x77b3, 0x125252325);
  (0x77b5, 0x454);
  (0x77bb, 0x325454225152315115227215327220125156);
  (0x77bd, 0x413);
  (0x77bf, 0x127427128227327125);
  (0x77c7, 0x152);
  (0x77cd, 0x100);
  (0x77d7, 0x152252);
  (0x77db, 0x103425125320225315227327325215427);
  (0x77dc, 0x100454227200327152252);
  (0x77e2, 0x426125227115315215152225);
  (0x77e3, 0x460215227145);
  (0x77e5, 0x152252125452225100315215325227327220320200256120115156352331228330230104131130132);
  (0x77e9, 0x225125426227362262220215332104200327315);
  (0x77eb, 0x152427100127156115125227104402132327200);
  (0x77ec, 0x125);
  (0x77ed, 0x104400125252100162152262225317362215200325315115320304135132352232220217327332117156);
  (0x77ee, 0x400452200125100325162152225362104);
  (0x77f3, 0x125225426127227130117325327317330230425343331315232132417131215252143320104115332152128256229220304228217120129);
  (0x77f6, 0x413230330227331);
  (0x77f8, 0x125325);
  (0x77fd, 0x125132);
  (0x77fe, 0x325225125332130);
  (0x77ff, 0x125225425325252320217204117232256230152104317327227238231331330120220);
  (0x7800, 0x130413227);
  (0x7801, 0x225125452207325252220152435320330256217130332);
  (0x7802, 0x125425225325315227132232204332230330252327);
  (0x7809, 0x433327);
  (0x780c, 0x452252152204125220);
  (0x780d, 0x452152125252156115320315);
  (0x7811, 0x413);
  (0x7812, 0x125);
  (0x7814, 0x156125152117225452256331252325317217227132142327332330104);
  (0x7816, 0x125425225227325252132315327232104320);
  (0x7817, 0x459125);
  (0x7818, 0x452);
  (0x781a, 0x426225327125227330);
  (0x781c, 0x413232225227);
  (0x781d, 0x125);
  (0x781f, 0x125);
  (0x7823, 0x452225125);
  (0x7825, 0x315426152156327227115);
  (0x7826, 0x413225227);
  (0x7827, 0x125426225227);
  (0x7829, 0x413);
  (0x782c, 0x125413);
  (0x782d, 0x454252315230125256);
  (0x7830, 0x433227327);
  (0x7834, 0x152452256252125325315115100229156215120327320162362227220130352143225331);
  (0x7837, 0x425125227225325120);
  (0x7838, 0x452152115317320);
  (0x7839, 0x413);
  (0x783a, 0x426252454227327256125);
  (0x783b, 0x452330230132227327125130);
  (0x783c, 0x425232);
  (0x783e, 0x125225325252);
  (0x7840, 0x225325426220320227252327125331);
  (0x7845, 0x425125225132325232332117330227);
  (0x7847, 0x130125);
  (0x784c, 0x452);
  (0x784e, 0x413227);
  (0x7850, 0x413);
  (0x7852, 0x425232125);
  (0x7855, 0x125402227200327100229115120330);
  (0x7856, 0x413130227);
  (0x7857, 0x459);
  (0x785d, 0x125425225325120152332132327232452);
  (0x786a, 0x413);
  (0x786b, 0x125425152225252325332132232227130);
  (0x786c, 0x400125200152107120320325100162217252317104315262132156227215131331);
  (0x786d, 0x459);
  (0x786e, 0x152200201101407325207100125301215130320307227120107352117);
  (0x7877, 0x425452);
  (0x787c, 0x425125225325227232132332327);
  (0x7887, 0x413225);
  (0x7889, 0x125);
  (0x788c, 0x200362262252207125115315129256130320);
  (0x788d, 0x225252452325100152204115315352320120215332);
  (0x788e, 0x252125400452200315152215225325232327115362262132256203332162);
  (0x7891, 0x225425125227304232215327230315330130252);
  (0x7893, 0x413225327);
  (0x7897, 0x435222225125325422330425327320227315332220132252);
  (0x7898, 0x425125132325232332);
  (0x789a, 0x413227330327);
  (0x789b, 0x413225325);
  (0x789c, 0x252459200);
  (0x789f, 0x426435225125327325227);
  (0x78a1, 0x225459);
  (0x78a3, 0x125227225426130330);
  (0x78a5, 0x413);
  (0x78a7, 0x426327125127162315227225402130200120320132230262);
  (0x78b0, 0x152452156252107352120320125227325327);
  (0x78b1, 0x225425125325220120152332356132232331452215256);
  (0x78b2, 0x413125);
  (0x78b3, 0x425125225325232152132426220332);
  (0x78b4, 0x225220325125252352);
  (0x78b9, 0x413);
  (0x78be, 0x452125152156130325227332);
  (0x78c1, 0x125325426225152320130132232156327252304104330217);
  (0x78c5, 0x422435225222315425252152452129125156227130);
  (0x78ca, 0x227427315100228327115);
  (0x78cb, 0x156252215315);
  (0x78d0, 0x426125227315215327129130);
  (0x78d4, 0x413225227);
  (0x78d5, 0x452152362162352125320);
  (0x78d9, 0x225125);
  (0x78e8, 0x252452152125325200225256156315132162362320215332115327220104120330232);
  (0x78ec, 0x426227225327);
  (0x78f2, 0x225459);
  (0x78f4, 0x435130);
  (0x78f7, 0x125425132225325156232227332327117104);
  (0x78fa, 0x225125132325332330);
  (0x78fb, 0x130);
  (0x7901, 0x425225125227230252327130);
  (0x7905, 0x413);
  (0x7913, 0x225459);
  (0x791e, 0x459);
  (0x7924, 0x459);
  (0x7934, 0x215252256459);
  (0x793a, 0x252225152256325454156125227320315104332327215120220330129);
  (0x793c, 0x125425225252227327232103152200325315215115320143256204130220352229343230132201);
  (0x793e, 0x125225425231325156120331320117220227131217230252238327229356317330232130256352104332228132);
  (0x7940, 0x252413227325327125);
  (0x7941, 0x130127427227125327128);
  (0x7946, 0x459);
  (0x7948, 0x152454426327227132104);
  (0x7949, 0x225426227);
  (0x7953, 0x413);
  (0x7956, 0x125225227127325427327426229156252128120315230215320115330129130256328228332);
  (0x7957, 0x413225227);
  (0x795a, 0x227327413220252329);
  (0x795b, 0x152454125315132);
  (0x795c, 0x413332227229330327);
  (0x795d, 0x452152252127156227125327229225128330230130325);
  (0x795e, 0x125225425100325120315252227320132115127130215327200152232220332162330131362156230104229352329331201129);
  (0x795f, 0x215315252413225200);
  (0x7960, 0x426125227230225327);
  (0x7962, 0x413125);
  (0x7965, 0x227327427225262325100426130200230315228127402132232332330128320120215252229125);
  (0x7967, 0x225413);
  (0x7968, 0x225125425252325222256422220215320227152330331);
  (0x796d, 0x452152125252327456156227220225256);
  (0x796f, 0x229227413327228);
  (0x7977, 0x252454152125156325327);
  (0x7978, 0x425225125215315252115220152320120325);
  (0x797a, 0x327227413);
  (0x7980, 0x152252125);
  (0x7981, 0x252152207452125325256215225156320315227327204130332352120317117132217343);
  (0x7984, 0x227225327127427426130125220328215230232325);
  (0x7985, 0x426125225227252152327325330132130);
  (0x798a, 0x413);
  (0x798f, 0x130327425125200127227132232330225230252331131229256129215325220315329115117120328152128228320332100);
  (0x79a7, 0x229327227413232204220225);
  (0x79b3, 0x400327227);
  (0x79b9, 0x127227427232130327320228230);
  (0x79ba, 0x230330227413325327332);
  (0x79bb, 0x152452252225125325256315215156100130227115332200207327104220320120304132117317);
  (0x79bd, 0x225426125315227325256332);
  (0x79be, 0x426125225227132327232320230104);
  (0x79c0, 0x200227402327125100215225232325130252162330315127262115328230129228120);
  (0x79c1, 0x125100402104107225152256156315325200252215204220320117207227217120115);
  (0x79c3, 0x400125262362152225325162);
  (0x79c6, 0x426225125204325227);
  (0x79c9, 0x327152454125227107115328315);
  (0x79cb, 0x225327444143227125127243343152328315115132120215320325317252352129220262130104332330);
  (0x79cd, 0x238222225125435422252152135235204320325127256220200215120217322115243227315332130352330117);
  (0x79d1, 0x125225425331227325127320232230130327332129229238217317104330117329132152204220315131252120215231200304115352228);
  (0x79d2, 0x425435422222125238235215225227315325252204327);
  (0x79d5, 0x225125);
  (0x79d8, 0x125200130426225252227417325327320362352152115262131120331);
  (0x79df, 0x452152225125325252220320256332);
  (0x79e3, 0x225413315227115327);
  (0x79e4, 0x425225125325252232);
  (0x79e6, 0x127427130243143125227417332327117132230129128131330315120325115232228331);
  (0x79e7, 0x125425252325225452256352327227);
  (0x79e9, 0x125426227115327437332152);
  (0x79eb, 0x125);
  (0x79ed, 0x130413);
  (0x79ef, 0x225101252125152325452207256315227327220320156115120130229330);
  (0x79f0, 0x452152252225125200325327100315201115320227120256217129156130);
  (0x79f8, 0x225125);
  (0x79fb, 0x252156452152125256225215315327227115104331325320332132220);
  (0x79fd, 0x200225125215100315);
  (0x7a00, 0x100400125152200162207120320362215104130227115132225156327352315220252232426325332);
  (0x7a02, 0x413315);
  (0x7a03, 0x413225);
  (0x7a0b, 0x225125325425127220204227252435222207152232331327320104304315332215256128217352228230115422);
  (0x7a0d, 0x407107207152120115112);
  (0x7a0e, 0x225125425252325217104317256331143117220215332131327204304232152132330);
  (0x7a14, 0x454200227);
  (0x7a17, 0x426125115225327);
  (0x7a1a, 0x200100125325228225328120);
  (0x7a1e, 0x225325227125);
  (0x7a20, 0x100400200227325315332125115);
  (0x7a23, 0x227413325);
  (0x7a33, 0x100200400125452107152252101120325362115104227162215262315132300327220304320);
  (0x7a37, 0x225413227130327);
  (0x7a39, 0x227);
  (0x7a3b, 0x225125426320327331132252325227332352130217);
  (0x7a3c, 0x225325127328125320);
  (0x7a3d, 0x427152200125315330227252325220327156332215256217);
  (0x7a3f, 0x225426125252325232217256220);
  (0x7a46, 0x132127129327227330200427417131230329332228201128229331130);
  (0x7a51, 0x459225227);
  (0x7a57, 0x425225125227120132327252325232229417343330152);
  (0x7a70, 0x413227327);
  (0x7a74, 0x225426435125152252315327215230304325330220115);
  (0x7a76, 0x256325107252331207454407225220315342200320152317227304);
  (0x7a77, 0x400125207215115100200262315203152325362220252120227217132320327);
  (0x7a78, 0x459225);
  (0x7a79, 0x125225);
  (0x7a7a, 0x125225400325142242152256252100227331127104162315320107452215115120352262207220217317200156231117232132204131103130327332362330229329328);
  (0x7a7f, 0x452152252125104215315115156325200120320220132256232);
  (0x7a80, 0x459125);
  (0x7a81, 0x101156100152125256407115130225315132252325107227232327215217);
  (0x7a83, 0x454252152325315115125120320256156225);
  (0x7a84, 0x400200107100225252162362215125);
  (0x7a86, 0x413);
  (0x7a88, 0x100115327);
  (0x7a8d, 0x426125225252315215220);
  (0x7a91, 0x425125225227232230252330332325130256426);
  (0x7a92, 0x152100);
  (0x7a95, 0x459200315227);
  (0x7a96, 0x225425152);
  (0x7a97, 0x142125225426252232315227115435327215104);
  (0x7a98, 0x452100125252200227327);
  (0x7a9c, 0x452252215152320);
  (0x7a9d, 0x425225125100452325307152327230332320252120329220330315);
  (0x7a9f, 0x225426125230325215);
  (0x7aa0, 0x425125315225);
  (0x7aa5, 0x152454325252315125227115215);
  (0x7aa6, 0x127427225227325125330327315);
  (0x7aa8, 0x452325125);
  (0x7aac, 0x413252);
  (0x7aad, 0x413);
  (0x7ab3, 0x413);
  (0x7abf, 0x225325);
  (0x7acb, 0x252107452152125322327156227325135204315104127117130115143215122330232256132129120331356320304220229328225228332200128231352);
  (0x7ad6, 0x452152125207315425320327215130);
  (0x7ad9, 0x452225152125142222230231232238252325227304120220217422130117256327330);
  (0x7ade, 0x156125152454107227120327320252315325100207);
  (0x7adf, 0x207407107152130227252327315);
  (0x7ae0, 0x225222227435127125238422215327252320256230130315325128330228232217104229220129);
  (0x7ae3, 0x152227252454125317);
  (0x7ae5, 0x225127125427143425227325327220320331232315330215332115120132229217343);
  (0x7ae6, 0x413227);
  (0x7aed, 0x107252215225403115402152315200120227325);
  (0x7aef, 0x225452212125152222227143100362327207262204215130217320220252162132242325200127315352129229112422);
  (0x7af9, 0x125426225227327230215132325315330130129104120127352332425229);
  (0x7afa, 0x230227427127327325128);
  (0x7afd, 0x413315225);
  (0x7aff, 0x426225315125325215327320252332227);
  (0x7b03, 0x402152162227262327100325200);
  (0x7b04, 0x413252);
  (0x7b06, 0x225125325);
  (0x7b08, 0x413225227252);
  (0x7b0a, 0x125);
  (0x7b0b, 0x225425125215227232230130426);
  (0x7b0f, 0x413227327315);
  (0x7b11, 0x452252125256227220162152200315225215320327115120325127352);
  (0x7b14, 0x125435225222238252162422207325315152332320130227327215120232115156220132);
  (0x7b15, 0x413327);
  (0x7b19, 0x425227125225327);
  (0x7b1b, 0x425125225127227426327325252);
  (0x7b1e, 0x454252227327);
  (0x7b20, 0x225227215);
  (0x7b24, 0x125);
  (0x7b25, 0x413327);
  (0x7b26, 0x152125225452252325127227232327315130156454220320427);
  (0x7b28, 0x400100200125120320115300227);
  (0x7b2a, 0x427227);
  (0x7b2b, 0x413);
  (0x7b2c, 0x122422132143125227325120330225104331320322131130252232332229327222215129127230220207315124329);
  (0x7b2e, 0x413227);
  (0x7b33, 0x413227320327);
  (0x7b38, 0x125);
  (0x7b3a, 0x452225125227325);
  (0x7b3c, 0x225152252452125425256100325115227426101327232120);
  (0x7b3e, 0x413);
  (0x7b45, 0x459);
  (0x7b47, 0x413125227);
  (0x7b49, 0x445152145245204125252200222238325320422207104225224155156115162220304130120327215356331256332315229352132);
  (0x7b4b, 0x225425125252115320315232332227100325132);
  (0x7b4c, 0x227413);
  (0x7b4f, 0x225426125325130327227);
  (0x7b50, 0x425225222125327435227);
  (0x7b51, 0x225325452252152220304156227215327331132131328);
  (0x7b52, 0x225435426125325104304320332227232330152130);
  (0x7b54, 0x252152452125156330230227256120220362262333233315325327352329232);
  (0x7b56, 0x225125227426152325252215156327220331232130315256332129329229);
  (0x7b58, 0x413);
  (0x7b5a, 0x125115413);
  (0x7b5b, 0x452152125156225327232252315352);
  (0x7b5d, 0x225425325227215327);
  (0x7b60, 0x227327413130228);
  (0x7b6e, 0x413225);
  (0x7b71, 0x327413227127);
  (0x7b72, 0x413125);
  (0x7b75, 0x125225);
  (0x7b77, 0x125225426325);
  (0x7b79, 0x152217325452125252327227315225215320156220331117);
  (0x7b7b, 0x413);
  (0x7b7e, 0x152452325252125225156220227256327332);
  (0x7b80, 0x100152107125425127225120227252315327162362427215104132128156200320130);
  (0x7b8d, 0x452325225152232125);
  (0x7b90, 0x413227);
  (0x7b93, 0x225228);
  (0x7b94, 0x225125217325);
  (0x7b95, 0x413225125315);
  (0x7b97, 0x252452152325225256207125220200120215331315304352227217204320156327115332);
  (0x7b9c, 0x125);
  (0x7b9d, 0x125);
  (0x7ba1, 0x156206452225125256252152325331127320217317130227327117112232132220120332315215129115300128204207);
  (0x7ba2, 0x459);
  (0x7ba6, 0x413);
  (0x7ba7, 0x413215);
  (0x7ba8, 0x413);
  (0x7ba9, 0x426125225227327);
  (0x7baa, 0x115);
  (0x7bab, 0x426252225227125327);
  (0x7bac, 0x125);
  (0x7bad, 0x425225325125256220227252315130331115215327320332330230120);
  (0x7bb1, 0x225125435222325232252112315142104327422130132204117);
  (0x7bb4, 0x125228);
  (0x7bc1, 0x413230227225);
  (0x7bc6, 0x426125417225);
  (0x7bc7, 0x222435320422325225204125315238252227215220322);
  (0x7bcc, 0x225459);
  (0x7bd1, 0x215413);
  (0x7bd3, 0x225125435426222325);
  (0x7bd9, 0x426225330);
  (0x7bda, 0x413);
  (0x7bdd, 0x125115);
  (0x7be1, 0x152);
  (0x7be5, 0x225459);
  (0x7be6, 0x225125);
  (0x7bea, 0x227413);
  (0x7bee, 0x125225417435252232325256142227231320117330332426331132317);
  (0x7bf1, 0x125225315230);
  (0x7bf7, 0x225425325204125227);
  (0x7bfc, 0x413);
  (0x7bfe, 0x225125);
  (0x7c07, 0x152426435235135162215227322222252225132125262);
  (0x7c0b, 0x426);
  (0x7c0c, 0x262162362);
  (0x7c0f, 0x413);
  (0x7c16, 0x413);
  (0x7c1f, 0x413);
  (0x7c26, 0x413);
  (0x7c27, 0x225425325125215232227);
  (0x7c2a, 0x125225152332);
  (0x7c30, 0x130);
  (0x7c38, 0x252125256262362);
  (0x7c3f, 0x426225125315327);
  (0x7c40, 0x413);
  (0x7c41, 0x225426315327320227);
  (0x7c4d, 0x225426227125204127252331152325217200332215256);
  (0x7c73, 0x222435422235225127125330325327229227129130332329315132256252320230335232220331131115104215);
  (0x7c74, 0x452227);
  (0x7c7b, 0x225435125238222152256204325422320215252227232315220104327120332130331);
  (0x7c7c, 0x125325225);
  (0x7c7d, 0x225426325125327252204227232);
  (0x7c89, 0x225125425152104325115252232227327215220332162315452132156256320);
  (0x7c91, 0x413225227);
  (0x7c92, 0x125225435222325422332320252227327120132230352232);
  (0x7c95, 0x225413232);
  (0x7c97, 0x400100125101152115207107215262225220104120200227320315162);
  (0x7c98, 0x125452152325100156132162204332362232);
  (0x7c9c, 0x452);
  (0x7c9d, 0x413225227);
  (0x7c9e, 0x413);
  (0x7c9f, 0x427225127227125325426215327129);
  (0x7ca2, 0x413);
  (0x7ca4, 0x417130125227327132332230117131317232);
  (0x7ca5, 0x425225104315232220320252115);
  (0x7caa, 0x425125225325215252327);
  (0x7cae, 0x125425225325120217252117331227315215230330131327317332115256132320);
  (0x7cb1, 0x225427325227327315215320332);
  (0x7cb2, 0x100);
  (0x7cb3, 0x125225);
  (0x7cb9, 0x200207225325204327426227203);
  (0x7cbc, 0x162262320220);
  (0x7cbd, 0x125);
  (0x7cbe, 0x125100400152225101115315252327325130227132232104120220215331332162256129156304317362131103);
  (0x7cc1, 0x413);
  (0x7cc5, 0x152252454);
  (0x7cc7, 0x413);
  (0x7cc8, 0x413);
  (0x7cca, 0x200100362452252262125225152315320162325220352115256156);
  (0x7ccc, 0x125);
  (0x7ccd, 0x125);
  (0x7cd5, 0x225200426125232132);
  (0x7cd6, 0x225125425252325227331332327132152120315);
  (0x7cd7, 0x413);
  (0x7cd9, 0x200400125325362262227);
  (0x7cdc, 0x127152427225100125227156232);
  (0x7cdf, 0x452100152215400362262125225115325132156);
  (0x7ce0, 0x425452252125225332315327227232);
  (0x7ce8, 0x125400);
  (0x7cef, 0x426125204402);
  (0x7cfb, 0x225125452252322135320204220325122304227152120232231327132238142332331315104356156);
  (0x7d0a, 0x100215402227);
  (0x7d20, 0x225425125227152220327200107232426325215207100230115252409400130330315329331320129332229143401);
  (0x7d22, 0x252127225227152107327427125256230130330417454325215200132229129426262315320220362329332162222115156131217232331343120);
  (0x7d27, 0x100207400252107152407101200156106125320220120115104225232162332227325327362315132331);
  (0x7d2b, 0x125400127130327104227325132131200315225215120129204162331230);
  (0x7d2f, 0x152252400452200220330162156262320103315227125325107256225215362100120201130331);
  (0x7d6e, 0x327452225125152362162227252);
  (0x7d77, 0x413);
  (0x7da6, 0x130127427);
  (0x7dae, 0x459);
  (0x7e3b, 0x252413227);
  (0x7e41, 0x152100200125425315115227327454130220120156325129132320);
  (0x7e47, 0x227434327);
  (0x7e82, 0x252413152227325);
  (0x7e9b, 0x413);
  (0x7ea0, 0x152125454220362262117156227);
  (0x7ea1, 0x413327252227115);
  (0x7ea2, 0x125400127225325227252327262132204130331220100320152162131117315232120362332104115215228317330304300156229230);
  (0x7ea3, 0x129315225329);
  (0x7ea4, 0x125225320426325100152120252232227115332231327331132);
  (0x7ea5, 0x232459227327);
  (0x7ea6, 0x407225252207156230152325129217125331262130330107315362200132227327256115356304320229220215127232332352329131);
  (0x7ea7, 0x225204435200256252238125222325422220320331207217227315352332224356304);
  (0x7ea8, 0x125115120);
  (0x7ea9, 0x413);
  (0x7eaa, 0x225125243152343127325227327427117232426352320332256224317330331215120252104220217129);
  (0x7eab, 0x325413225252327332);
  (0x7eac, 0x225426327125325204227130315);
  (0x7ead, 0x459215262320);
  (0x7eaf, 0x400200100125227152107104252327325315132232256115328);
  (0x7eb0, 0x125452);
  (0x7eb1, 0x225425125252325227327256232132);
  (0x7eb2, 0x425125227225325252327315228115320204);
  (0x7eb3, 0x252152227452230127125330327132229225325232130417129117122329256315100332331231320322215131);
  (0x7eb5, 0x152452252125107106115320325315229232200327215100227331406217256332120400132);
  (0x7eb6, 0x225227459232215327115125325315220332200);
  (0x7eb7, 0x207107225315100402215125152262115362162320325120101);
  (0x7eb8, 0x225425125252325222232256315332115352132120422320220);
  (0x7eb9, 0x225426325125227327115204232330332315);
  (0x7eba, 0x125217325152452204332225252232156227132130331);
  (0x7ebd, 0x130225417125131220327129332331227329229);
  (0x7ebe, 0x413227152315327);
  (0x7ebf, 0x225425125325242222232217212304256220252204227320120142327422215104331231132332117315130330);
  (0x7ec0, 0x225413327325);
  (0x7ec1, 0x413225);
  (0x7ec2, 0x413227);
  (0x7ec3, 0x256452152200252225325127125315227100327156215130228320207330132);
  (0x7ec4, 0x152256125225435120331222325320252422317425238104327135235217328227117231156322332122204);
  (0x7ec5, 0x225125220132232);
  (0x7ec6, 0x125400201200100325152162225207107330362315320304352120327156115215262252227132204332129127232130220);
  (0x7ec7, 0x252225325231125452152204220232331332217227320156315130352327104304330356256129);
  (0x7ec8, 0x207107125407152252122243127215315130227220325320322115256132);
  (0x7ec9, 0x262362125225);
  (0x7eca, 0x452225152125362262252);
  (0x7ecb, 0x413);
  (0x7ecc, 0x215413);
  (0x7ecd, 0x252130227327427325230330132125129127315225328131);
  (0x7ece, 0x252315227413325327);
  (0x7ecf, 0x125207434134225156325152107252320204120315220331117327332127200217227232215115300131256330317130304100201343301328230132262128352);
  (0x7ed0, 0x413);
  (0x7ed1, 0x452152252125220304156132);
  (0x7ed2, 0x125225425325227232327252362162);
  (0x7ed3, 0x125152252452156200225325100315320120362162352227127327256332115317220217117215331330356229130132262232);
  (0x7ed4, 0x459315225327);
  (0x7ed5, 0x252452152125227225215327130325156315332220320120100);
  (0x7ed7, 0x452);
  (0x7ed8, 0x125252452152225256115315227325327156332331);
  (0x7ed9, 0x434252152256125325315330320117156225327132215331227);
  (0x7eda, 0x100115120);
  (0x7edb, 0x404125227327230130330);
  (0x7edc, 0x225252452256325115125120352200152315327331227220320232304332104);
  (0x7edd, 0x107252407122152125100215230315220320120104115225156162200262143227322325352);
  (0x7ede, 0x452125325152115220435);
  (0x7edf, 0x225152156125452325220120331227200107207327252320332217243352115315117232131204215229304201132317130);
  (0x7ee0, 0x413);
  (0x7ee1, 0x413225227327232);
  (0x7ee2, 0x425225125227229327325132);
  (0x7ee3, 0x452225125152327227315132232115330320252325332156);
  (0x7ee5, 0x130417152217327227129330229230125132);
  (0x7ee6, 0x125325);
  (0x7ee7, 0x152454207125327106156227256215252325315332115232143328220);
  (0x7ee8, 0x413);
  (0x7ee9, 0x225125227104426325220327130252);
  (0x7eea, 0x225325252426227327215352315125220243320);
  (0x7eeb, 0x152125);
  (0x7eed, 0x252253200207325225256452127152125215315320156227307204332327220);
  (0x7eee, 0x100228127328);
  (0x7eef, 0x125162);
  (0x7ef0, 0x125452315200227215115320100130327362262);
  (0x7ef1, 0x452);
  (0x7ef2, 0x452227125);
  (0x7ef3, 0x125225426427327230252227115330232220325228132320454204215);
  (0x7ef4, 0x152225125330327227222127130156132325220427417129117329435232320332331422229252230352315131162115322454256217228426356);
  (0x7ef5, 0x400125262152130225162200320100325227327362315220252115120101328228332131);
  (0x7ef6, 0x327426225227125325215);
  (0x7ef7, 0x452125152362262225);
  (0x7ef8, 0x225125426320315325152327227);
  (0x7efa, 0x435);
  (0x7efb, 0x459200);
  (0x7efc, 0x156125117426325120315152106227262131454327132331217332);
  (0x7efd, 0x454152225215227315);
  (0x7efe, 0x452227);
  (0x7eff, 0x125400325327252227156262330127225204362129132162120315200115215152320328130332131220352104232);
  (0x7f00, 0x452252225227125);
  (0x7f01, 0x413);
  (0x7f02, 0x459125);
  (0x7f03, 0x413227327);
  (0x7f04, 0x454152315227156);
  (0x7f05, 0x130452152131417125132229329);
  (0x7f06, 0x225125425325452220232227331);
  (0x7f07, 0x413227327);
  (0x7f08, 0x200215459262362);
  (0x7f09, 0x252152325125156256225);
  (0x7f0b, 0x413);
  (0x7f0c, 0x413227);
  (0x7f0e, 0x426225125227132);
  (0x7f0f, 0x413);
  (0x7f11, 0x413127);
  (0x7f12, 0x452);
  (0x7f13, 0x152100252452107207200125215115327156315201227162362217262120132325);
  (0x7f14, 0x152125252320156);
  (0x7f15, 0x222435262215162315362227325200422320152229);
  (0x7f16, 0x125152452252225256325217117320120104156204332132331215315);
  (0x7f17, 0x435227);
  (0x7f18, 0x225425125252227325212134315138256215352327204320220232434200152115132332242);
  (0x7f19, 0x125413130227327228);
  (0x7f1a, 0x454252256125215325315);
  (0x7f1b, 0x413200315);
  (0x7f1c, 0x100);
  (0x7f1d, 0x225452125325152252256425215132204220315352332320156);
  (0x7f1f, 0x413125227);
  (0x7f20, 0x452152252225100200215315327125115320362132162);
  (0x7f21, 0x413227);
  (0x7f22, 0x252413125);
  (0x7f23, 0x413);
  (0x7f24, 0x315162120);
  (0x7f25, 0x100315162362);
  (0x7f27, 0x459125);
  (0x7f28, 0x426227225325125252327232);
  (0x7f29, 0x252152452256125325217220156315320115352227304232332225);
  (0x7f2a, 0x127215327427227435252229129225);
  (0x7f2b, 0x152125156);
  (0x7f2c, 0x413227327125);
  (0x7f2d, 0x152452315227100);
  (0x7f2e, 0x252152);
  (0x7f2f, 0x413227);
  (0x7f30, 0x125426252215325327315);
  (0x7f31, 0x459100);
  (0x7f32, 0x452);
  (0x7f33, 0x413);
  (0x7f34, 0x152252452225325156256125327220);
  (0x7f35, 0x413227);
  (0x7f38, 0x425225125232204325252227132130);
  (0x7f3a, 0x152125452252200156220325225315115215100120227320332256);
  (0x7f42, 0x125327);
  (0x7f44, 0x454252115227);
  (0x7f45, 0x125);
  (0x7f50, 0x125225435325222142104320220232204252327422);
  (0x7f51, 0x125225425142252232325152315215227331320132231115131327117352256120130104332217220);
  (0x7f54, 0x413315115152227);
  (0x7f55, 0x100401329252227229402230315232327330200325);
  (0x7f57, 0x127330130417327227229125230325252129225232329332315152343331132100104204128131120320304156220328);
  (0x7f58, 0x413230330);
  (0x7f5a, 0x256452252152225125325315320117215156);
  (0x7f5f, 0x413225);
  (0x7f61, 0x459227225327125315);
  (0x7f62, 0x452152160260252315227352115332156125);
  (0x7f68, 0x413);
  (0x7f69, 0x452225252125220327227232132);
  (0x7f6a, 0x425125252256225325115215232220300320315120327);
  (0x7f6e, 0x252225452256152125325315327115132320156215120332304232229);
  (0x7f71, 0x452425);
  (0x7f72, 0x252225426152231125117327220227325238);
  (0x7f74, 0x413);
  (0x7f79, 0x152125);
  (0x7f7e, 0x413);
  (0x7f81, 0x152125402252215156227220327);
  (0x7f8a, 0x125425225227127327325230252130220330315132115331215232332320256228352243128143317);
  (0x7f8c, 0x427417130132330227229225125217);
  (0x7f8e, 0x130417135322125122131200100117330132230327127227232256225252152217331320325104156317332215315115120129229207107162220231228328262362103);
  (0x7f94, 0x125225426252325227);
  (0x7f9a, 0x125225325132152);
  (0x7f9d, 0x413);
  (0x7f9e, 0x452100152200125315252162325227362120156225115400);
  (0x7f9f, 0x125132325332);
  (0x7fa1, 0x152252427327320227454256225200315);
  (0x7fa4, 0x125435225222227330252315152327120320217115230220325107215200317156422352130117304104232132256131228);
  (0x7fa7, 0x125459325);
  (0x7faf, 0x125332232);
  (0x7fb0, 0x125459);
  (0x7fb2, 0x227327413328225228);
  (0x7fb8, 0x162);
  (0x7fb9, 0x426225327125320315215227232);
  (0x7fbc, 0x413);
  (0x7fbd, 0x227125427435225127327152417130204315426222331115252229129228325422120);
  (0x7fbf, 0x427229227127327);
  (0x7fc1, 0x426225127427227315327230130330125320229);
  (0x7fc5, 0x426125325327252225315227229332);
  (0x7fca, 0x327413227);
  (0x7fcc, 0x143);
  (0x7fce, 0x426125227327225325232);
  (0x7fd4, 0x227252230427100325232327256228132330332229);
  (0x7fd5, 0x152);
  (0x7fd8, 0x452152227225125115327325320120);
  (0x7fdf, 0x127427227);
  (0x7fe0, 0x426227127225327125162262130200325252315402330320220230129215);
  (0x7fe1, 0x125130327);
  (0x7fe5, 0x227413327);
  (0x7fe6, 0x427227128);
  (0x7fe9, 0x227127320115315220215162402120252152325125327);
  (0x7fee, 0x227413);
  (0x7ff0, 0x229132125227426332327230330329331232129);
  (0x7ff1, 0x152156327);
  (0x7ff3, 0x413227225252);
  (0x7ffb, 0x152452252115125120315225320232227156215327256107325);
  (0x7ffc, 0x225426215315227125327130325242330217232104204332252207230212320228);
  (0x8000, 0x252327227100452200331115125130132225315454328325228);
  (0x8001, 0x125400127200225327325100130256227143252320315104238152115107120138352215162362117128217129317132330307220156230331131332);
  (0x8003, 0x152156252452125325220256227327225230129330332217127143130315320100117331317329229);
  (0x8004, 0x115125);
  (0x8005, 0x225419206238306227325320315232217327331215220132330130);
  (0x8006, 0x230426125227330);
  (0x800b, 0x315225413);
  (0x800c, 0x406106206315145207320160306325107143152327227129352304307115362328120);
  (0x800d, 0x452252152120225200320);
  (0x8010, 0x100452125300252132152225104115120200103327101215227127325315320156129220228);
  (0x8012, 0x130125);
  (0x8015, 0x125152452156227252325315320327256225132304);
  (0x8016, 0x425);
  (0x8017, 0x252152225452125325256204220227327320315);
  (0x8018, 0x252454227325327125228225);
  (0x8019, 0x425452125225215132152);
  (0x801c, 0x227413225);
  (0x8020, 0x452);
  (0x8022, 0x425452);
  (0x8025, 0x459);
  (0x8026, 0x156);
  (0x8027, 0x413);
  (0x8028, 0x413);
  (0x8029, 0x413);
  (0x802a, 0x452152);
  (0x8031, 0x252413);
  (0x8033, 0x125425330225227325142152315200207115327215235156220332252100320331120132229);
  (0x8035, 0x125459);
  (0x8036, 0x127417227327130131460129329229331330125325132225332);
  (0x8037, 0x152227320262362);
  (0x8038, 0x454152252315115325125320227327);
  (0x803b, 0x200125225452215152315325220252320156227115203);
  (0x803d, 0x152427227100);
  (0x803f, 0x127315215427115227100327130125120320128);
  (0x8042, 0x127330427128329130327227);
  (0x8043, 0x413227327);
  (0x8046, 0x152454227327);
  (0x804a, 0x452152200252130315132125115107352215325327);
  (0x804b, 0x452125256215315252317227);
  (0x804c, 0x125426252225256325152204320315215200217232117220227156327317304120132);
  (0x804d, 0x225459);
  (0x8052, 0x100252);
  (0x8054, 0x152125230454317325131331256225252217117330120156232132130227327231320332107315220104352100304);
  (0x8058, 0x252152452325125227256327);
  (0x805a, 0x152452252125325332120156327227115132130315232215256320330);
  (0x8069, 0x200215413);
  (0x806a, 0x100227125402115315327232252120320325228);
  (0x8071, 0x315100459);
  (0x807f, 0x328327);
  (0x8083, 0x230200427100330152227201327252156115325454125130331101129329162);
  (0x8084, 0x152125);
  (0x8086, 0x207422152200115107225426252215320156327227315);
  (0x8087, 0x130156427327125227129152332328132128);
  (0x8089, 0x225425125315204320325252215100104332220152120227304327132232143217117);
  (0x808b, 0x425125225320);
  (0x808c, 0x125426225325152315129320132220);
  (0x8093, 0x459215225);
  (0x8096, 0x127125427204327227215225220315454330130129128230);
  (0x8098, 0x426252125225215115256315);
  (0x809a, 0x125426112322325225252320215352230152315122220);
  (0x809b, 0x125225);
  (0x809c, 0x413227);
  (0x809d, 0x425125225325115252320315220215332232117132);
  (0x809f, 0x413232325);
  (0x80a0, 0x225125425325320315252215220327152332227256);
  (0x80a1, 0x125435225222252422238332325256227120331135117232320152327220115217132307215);
  (0x80a2, 0x225426125325252152204315);
  (0x80a4, 0x225325426125252332100215315227232);
  (0x80a5, 0x100225125425252230325452320256330130315227400331156132332327215129162362120104220115);
  (0x80a9, 0x125425142225152207252320120220315327215325227232115204452);
  (0x80aa, 0x225325459304);
  (0x80ab, 0x413225);
  (0x80ad, 0x459);
  (0x80ae, 0x100101);
  (0x80af, 0x152252452130227207127327125330129100200229132131232225329256206230331332);
  (0x80b1, 0x225125325220);
  (0x80b2, 0x256252325225220152454327156331320227343125330104229315129130332217132328329);
  (0x80b4, 0x225413125215227);
  (0x80b7, 0x413);
  (0x80ba, 0x425125225220252115215315325320);
  (0x80bc, 0x413225232);
  (0x80bd, 0x426225232125325);
  (0x80be, 0x125425252120225152132325104);
  (0x80bf, 0x125225452252152320200220325315156215331);
  (0x80c0, 0x217220252400325317320225152215332162256362200);
  (0x80c1, 0x256426152252454225325125315327115);
  (0x80c2, 0x413);
  (0x80c3, 0x425125225252200120227132325320352);
  (0x80c4, 0x413225227228327);
  (0x80c6, 0x125201425100225215115315152252227320207325327120132162317);
  (0x80cc, 0x452125152112225252115107315227325215220156327100142230204200132320332120352);
  (0x80cd, 0x413);
  (0x80ce, 0x225125435252325104222256220315231227232422115132356215);
  (0x80d6, 0x125400200162325362262327252227315100225215304);
  (0x80d7, 0x413227);
  (0x80d9, 0x413);
  (0x80da, 0x125325225320);
  (0x80db, 0x225325);
  (0x80dc, 0x156252452325125227225152315327215320230232330120220204131115132332130328217228200329127229256143);
  (0x80dd, 0x225459315);
  (0x80de, 0x225325204220125331330);
  (0x80e1, 0x127125427152227115107225128327325407320132330120130352315100362156129162329229426142);
  (0x80e4, 0x413227327);
  (0x80e5, 0x127227427327130125);
  (0x80e7, 0x200459362262227325);
  (0x80e8, 0x413);
  (0x80e9, 0x413);
  (0x80ea, 0x413);
  (0x80eb, 0x426315125);
  (0x80ec, 0x459125);
  (0x80ed, 0x125);
  (0x80ef, 0x426125327);
  (0x80f0, 0x125426120325217);
  (0x80f1, 0x225459325327125132);
  (0x80f3, 0x125120152);
  (0x80f4, 0x125);
  (0x80f6, 0x225425125130152325104132256232315120156452220332115204320);
  (0x80f8, 0x125426142225115325252315215220156207425117327120320);
  (0x80fa, 0x225425232325132332227327);
  (0x80fc, 0x125115);
  (0x80fd, 0x252452125225152325217327204207307315320200127227256232352332215115331100220304120356230231132129229130);
  (0x8102, 0x125225325230220315330232252130104);
  (0x8106, 0x207100400200125225315320162232262362132);
  (0x8109, 0x225426230125435320325227215220252315327232262162120332);
  (0x810a, 0x125426120225325227327330117315);
  (0x810d, 0x115426454120);
  (0x810e, 0x413);
  (0x810f, 0x225400125325200315162100332320201120227331);
  (0x8110, 0x426125225325315);
  (0x8111, 0x125225425320215325220315352120231232252152262115207332200331132);
  (0x8112, 0x413225232);
  (0x8113, 0x125425325252);
  (0x8114, 0x413225215);
  (0x8116, 0x125426225352325320227);
  (0x8118, 0x413225);
  (0x811a, 0x425125225112252224215325315230152220312115262342200227320207327104204307);
  (0x811e, 0x413);
  (0x8129, 0x225);
  (0x812c, 0x459);
  (0x812f, 0x225413325125227);
  (0x8131, 0x152252452115125156200330227315229127327362262120235220325332132256352331320232);
  (0x8132, 0x413225132325232);
  (0x8138, 0x425142125225207222252152215220200201227120320325327315300256115100);
  (0x813e, 0x125425352225325215227320);
  (0x8146, 0x200452);
  (0x8148, 0x225125325);
  (0x814a, 0x230325426143332125227327330225331320315124232229252329);
  (0x814b, 0x426142125225315215);
  (0x814c, 0x452152125132);
  (0x8150, 0x103225152400125100325252200332320232104352315256220454132330227215);
  (0x8151, 0x225413215315220);
  (0x8153, 0x129132130125230);
  (0x8154, 0x225435252222125204325315120320327426220);
  (0x8155, 0x225426125142325252132220320227352);
  (0x8159, 0x413);
  (0x8160, 0x125426);
  (0x8165, 0x400200125100325225315115332);
  (0x8167, 0x125413);
  (0x8169, 0x459225227);
  (0x816d, 0x225125317);
  (0x816e, 0x425125320215327225325204);
  (0x8170, 0x425125252225207152325220352120115204320130215329132232);
  (0x8171, 0x225125);
  (0x8174, 0x200225402413);
  (0x8179, 0x125426225152142315252325215115227352316320156332);
  (0x817a, 0x225125325320220);
  (0x817b, 0x200452225152362262100320162125);
  (0x817c, 0x100);
  (0x817e, 0x252452152227215225315327362262130330115120127256132325220320125232);
  (0x817f, 0x425225125252325207232220327320227332352100217);
  (0x8180, 0x225125452320120232220);
  (0x8182, 0x125);
  (0x8188, 0x225325);
  (0x818a, 0x225413325252320315220);
  (0x818f, 0x225452125325232315215220115320332);
  (0x8191, 0x227413);
  (0x8198, 0x426115252125);
  (0x819b, 0x225426327252125325);
  (0x819c, 0x225425325232125152315252132);
  (0x819d, 0x426125252225215227315320220);
  (0x81a3, 0x413);
  (0x81a6, 0x225413);
  (0x81a8, 0x320152325125120132100);
  (0x81b3, 0x426125252229225232);
  (0x81ba, 0x454252227215327);
  (0x81bb, 0x400200125215);
  (0x81c0, 0x125426227);
  (0x81c1, 0x413327);
  (0x81c2, 0x225425125315325215426252327227220204320332);
  (0x81c3, 0x100402);
  (0x81c6, 0x152225215426320156125227);
  (0x81ca, 0x400200125225252);
  (0x81cc, 0x125413);
  (0x81e3, 0x225425227125327215152252230315330229220426232);
  (0x81e7, 0x127427152128227125315);
  (0x81ea, 0x138434107152125100252207328120238156330315134115327325320332129227331104304130132307103131352162117230217232234300153);
  (0x81ec, 0x427225215);
  (0x81ed, 0x400125225152200252115315162227325100215262232327320120);
  (0x81f3, 0x434207252107134206307152120306327230227315320132243215234115125212220325262225330228332);
  (0x81f4, 0x252200152452207206225125315100215156325320327132227131352220203232331362328329262);
  (0x81fb, 0x427228454227315252320327);
  (0x81fc, 0x426125230225325252227215330);
  (0x81fe, 0x243320459230315227);
  (0x8200, 0x452227125);
  (0x8202, 0x452327227);
  (0x8204, 0x413);
  (0x8205, 0x225125425325227426215);
  (0x8206, 0x125225115330230320);
  (0x820c, 0x425125225215252325330220320352200152315227115120204156);
  (0x820d, 0x225452152125215252327107325227229115129142256230330132329315220320127352130);
  (0x8210, 0x454115);
  (0x8212, 0x100127227125427152156327454162362129120200130132332225325402229128);
  (0x8214, 0x452152);
  (0x821b, 0x220125);
  (0x821c, 0x413227327225331125232);
  (0x821e, 0x125452252225325152315215227156220331130327320117115256131143120);
  (0x821f, 0x425225130215227125232252315327120129330325228);
  (0x8221, 0x413);
  (0x8222, 0x125);
  (0x8223, 0x413);
  (0x8228, 0x459);
  (0x822a, 0x125217252152426325225331227427156256117332131231232327132317330454130135228);
  (0x822b, 0x225413227327);
  (0x822c, 0x200145445238320207220125325315245215100352162262327225132227130204);
  (0x822d, 0x459);
  (0x8230, 0x225125426104331227332327231);
  (0x8231, 0x225425125142252227330);
  (0x8233, 0x459125);
  (0x8234, 0x459125);
  (0x8235, 0x425252125225215325327227);
  (0x8236, 0x225426325227331125);
  (0x8237, 0x426225125142132227);
  (0x8238, 0x413227315327);
  (0x8239, 0x425125225142252256325217315232156220104227331130117129332327215320224120);
  (0x823b, 0x413225);
  (0x823e, 0x125);
  (0x8244, 0x125);
  (0x8247, 0x225425125227426331325);
  (0x8249, 0x413);
  (0x824b, 0x459225);
  (0x824f, 0x413);
  (0x8258, 0x422222435135);
  (0x825a, 0x413);
  (0x825f, 0x225459);
  (0x8268, 0x459125);
  (0x826e, 0x413332225227327);
  (0x826f, 0x100200125227327262252400104407122225325427320130115315230120232162215256330129229332220328329331426322228132143152127);
  (0x8270, 0x100115220402120225125315215262320227);
  (0x8272, 0x225125426325204252215200330220315227320238224327130230256115332331129352104207132232152262);
  (0x8273, 0x200400227100327125262152362315220320120215252228156325);
  (0x8274, 0x413);
  (0x827a, 0x125225325320426227252327331215220232132332330217120152231117315328115304317229228);
  (0x827d, 0x427227327225459);
  (0x827e, 0x127125427227327129330215130225315128132);
  (0x827f, 0x459227225);
  (0x8282, 0x225125152425256243143325252222422156227320100215230220120115217304315330327104204232332117130231228132362262);
  (0x8288, 0x433);
  (0x828a, 0x459227327);
  (0x828b, 0x225125);
  (0x828d, 0x125225132130);
  (0x828e, 0x459225227);
  (0x828f, 0x459327227);
  (0x8291, 0x413227);
  (0x8292, 0x225426125227315327130143215332129115330325220230252127229);
  (0x8297, 0x125130);
  (0x8298, 0x225459);
  (0x8299, 0x125129130327325229315232332329115);
  (0x829c, 0x130200230228100330125225332331325);
  (0x829d, 0x125130131229225331325232330332227315228132);
  (0x829f, 0x152);
  (0x82a1, 0x125252);
  (0x82a4, 0x125);
  (0x82a5, 0x125435225129227320327);
  (0x82a6, 0x125225127427330325130220227327332215315132320);
  (0x82a8, 0x125325225);
  (0x82a9, 0x427225227327);
  (0x82aa, 0x225459227);
  (0x82ab, 0x125);
  (0x82ac, 0x227130417125327129325330132229131230200232225);
  (0x82ad, 0x125331129);
  (0x82ae, 0x127427227130327);
  (0x82af, 0x426125225435227325327222232332);
  (0x82b0, 0x413);
  (0x82b1, 0x225125452325127152315330252320227130215115162327131362232262230204132143120332331128256200104100129117220329228);
  (0x82b3, 0x227125327427225426252315402132228130232215332220320129331162);
  (0x82b4, 0x413125);
  (0x82b7, 0x459225130227327127);
  (0x82b8, 0x125115315327227262162228328);
  (0x82b9, 0x227125427327426225);
  (0x82bd, 0x252425225125227325327256320332129);
  (0x82be, 0x459227);
  (0x82c1, 0x459325125227);
  (0x82c4, 0x459232227332132325);
  (0x82c7, 0x225125426325227327130128);
  (0x82c8, 0x459327325227);
  (0x82ca, 0x413);
  (0x82cb, 0x225125);
  (0x82cc, 0x427227327);
  (0x82cd, 0x100125127162130427262315225362129215227325426320327120230229115103200);
  (0x82ce, 0x125);
  (0x82cf, 0x130252127230417330125117131227327132152331325225129229128332329200362262);
  (0x82d1, 0x426427227225230127327125330232229325);
  (0x82d2, 0x215459252220227);
  (0x82d3, 0x225227459325125327);
  (0x82d4, 0x426125225227120327325130);
  (0x82d5, 0x225125);
  (0x82d7, 0x225425125127132252330227100327130329325315256128115232328);
  (0x82d8, 0x125413);
  (0x82db, 0x100152125200115120156);
  (0x82dc, 0x125320130);
  (0x82de, 0x426125227225315320252325);
  (0x82df, 0x152407115215315127320227406427125327);
  (0x82e0, 0x227);
  (0x82e1, 0x413225227);
  (0x82e3, 0x459225327125);
  (0x82e4, 0x125);
  (0x82e5, 0x406122206327315127227115106138225129252215152125130320262352330232207322228120452220);
  (0x82e6, 0x400203125252200152100207315107225215115201262362320220325327120256130352330101232);
  (0x82eb, 0x452125225);
  (0x82ef, 0x425125225325332132232131);
  (0x82f1, 0x130417125227132327131225100117127135122322325232229129330115317120335315104228332320328230101204329128331);
  (0x82f7, 0x459325225232332);
  (0x82f9, 0x125130131320132332331327);
  (0x82fb, 0x427327);
  (0x8301, 0x100120101);
  (0x8302, 0x227100400327200130215129325220232329252127332330320125262132);
  (0x8303, 0x125252127225325256427227331356128327130220426304231330320132129);
  (0x8304, 0x225125325332132);
  (0x8305, 0x125127427225215130227132325315330230327115332329128);
  (0x8306, 0x427230);
  (0x8307, 0x413);
  (0x8309, 0x125325225);
  (0x830c, 0x427130);
  (0x830e, 0x425225227125327320);
  (0x830f, 0x459262327);
  (0x8311, 0x413);
  (0x8314, 0x225426);
  (0x8315, 0x413);
  (0x8317, 0x426252327227225);
  (0x831a, 0x413132);
  (0x831b, 0x225459);
  (0x831c, 0x427125227327229);
  (0x8327, 0x426225125227315325220327);
  (0x8328, 0x229330230332227327329130129132232325331);
  (0x832b, 0x262100162402200362120101220152215315320227115203);
  (0x832c, 0x435222225252125325426352);
  (0x832d, 0x125);
  (0x832f, 0x125325);
  (0x8331, 0x325125);
  (0x8333, 0x327);
  (0x8334, 0x125325);
  (0x8335, 0x230330227426327125262215162362225325229);
  (0x8336, 0x425125225252227327130325132232115315117120256230220330332331320);
  (0x8338, 0x225262362125162327227);
  (0x8339, 0x127227427315327115129225330230);
  (0x833a, 0x459);
  (0x833c, 0x125);
  (0x8340, 0x127427227327128);
  (0x8343, 0x227413327130);
  (0x8346, 0x130127417330125427225327227315252325129115);
  (0x8347, 0x459327);
  (0x8349, 0x125225425252325104227315120152327330232207107100156320115220129215229200332132204331130256101230117317127);
  (0x834f, 0x315215152100320413227);
  (0x8350, 0x252454256325152227215225327125332);
  (0x8351, 0x413227327);
  (0x8352, 0x125100452252225426315152115230215325120327130242320156220129217227330);
  (0x8354, 0x125229130325129225330228232132);
  (0x835a, 0x427125225252327);
  (0x835b, 0x225413);
  (0x835c, 0x459225315);
  (0x835e, 0x125225132);
  (0x835f, 0x152225315332327130);
  (0x8360, 0x225125132332);
  (0x8361, 0x252256452203315152200362262215352115225325330320227220230327125120162332);
  (0x8363, 0x252227127125402327200152100225325115427215315132328130220320230330228229232128120331129);
  (0x8364, 0x426125252225132);
  (0x8365, 0x130413327227);
  (0x8366, 0x227413327);
  (0x8367, 0x125262162100327227);
  (0x8368, 0x125);
  (0x8369, 0x413);
  (0x836a, 0x413227232);
  (0x836b, 0x400225327227252426152100125454315325215220229330320328);
  (0x836c, 0x459325);
  (0x836f, 0x225125425252325104327232217332231331215131227220117238256320132115130315120330152);
  (0x8377, 0x225130426125227129417327207131330332325132115204217127320220);
  (0x8378, 0x125);
  (0x837b, 0x425327427227127);
  (0x837c, 0x215152325);
  (0x837d, 0x225459);
  (0x8385, 0x454152);
  (0x8386, 0x130125);
  (0x8389, 0x227459325225327129229329);
  (0x838e, 0x127327130229125230329232225227330331332129);
  (0x8392, 0x413130129327);
  (0x8393, 0x225413327227332);
  (0x8398, 0x427127227125325130327);
  (0x839b, 0x413);
  (0x839c, 0x125);
  (0x839e, 0x230330417120327227152331);
  (0x83a0, 0x315262402215413125227);
  (0x83a8, 0x125459325327225315);
  (0x83a9, 0x459327);
  (0x83aa, 0x459230125330227);
  (0x83ab, 0x407127130107152115315327129207120227104131320329125229106132330332325128230232100331);
  (0x83b0, 0x413);
  (0x83b1, 0x327130435227129330230229332329127125132331131225232320);
  (0x83b2, 0x327125426227225325130129230131132330332232328228);
  (0x83b3, 0x459327125115227);
  (0x83b4, 0x125);
  (0x83b6, 0x459227225);
  (0x83b7, 0x152452252125156215315325227130120225332129327);
  (0x83b8, 0x413);
  (0x83b9, 0x200227427327315362262100127132);
  (0x83ba, 0x426225227327115325232315);
  (0x83bc, 0x125);
  (0x83bd, 0x227232427200228100225327162325262125362402130);
  (0x83c0, 0x459225227327);
  (0x83c1, 0x427227225232327125132);
  (0x83c5, 0x315427127426);
  (0x83c7, 0x225426325332125227252);
  (0x83ca, 0x426125227327225325332130228129215232);
  (0x83cc, 0x225425252125325220227320332304232);
  (0x83cf, 0x417130227);
  (0x83d4, 0x459332225227);
  (0x83d6, 0x125325);
  (0x83d8, 0x413327);
  (0x83dc, 0x225425125325252327130227332220232215330132320352200);
  (0x83dd, 0x459125);
  (0x83df, 0x125225);
  (0x83e0, 0x125325);
  (0x83e1, 0x227459125327);
  (0x83e5, 0x459327227);
  (0x83e9, 0x125120325130320);
  (0x83ea, 0x459225325315);
  (0x83f0, 0x413);
  (0x83f1, 0x227426232125332327132331130231230);
  (0x83f2, 0x327130417227129132329229200330125225152131332127230232315331325228);
  (0x83f9, 0x413227);
  (0x83fd, 0x426227130327125);
  (0x8401, 0x413227225);
  (0x8403, 0x152252215426454227225327);
  (0x8404, 0x325225330332459331227252125);
  (0x8406, 0x459);
  (0x840b, 0x459);
  (0x840c, 0x152227452427327130215132156);
  (0x840d, 0x227427130327225125115);
  (0x840e, 0x152100252125115452325);
  (0x840f, 0x459225);
  (0x8411, 0x413327);
  (0x8418, 0x413125227332132232);
  (0x841c, 0x413125225325);
  (0x841d, 0x325125225227320120129327329);
  (0x8424, 0x125225);
  (0x8425, 0x256125425156225325204252152227230130327220215142315304120352330104229320132115143452331129);
  (0x8426, 0x152327454220227);
  (0x8427, 0x127427100162130327262227128125315115);
  (0x8428, 0x127225330227230327427130325417129125332229329132320331117128232);
  (0x8431, 0x125225);
  (0x8438, 0x225459227327);
  (0x843c, 0x125225325);
  (0x843d, 0x252152452225100125215315325200220256320115262362120156130327227352342104230132330);
  (0x8446, 0x327454330227252320);
  (0x8451, 0x413327227);
  (0x8456, 0x225);
  (0x8457, 0x100452125200225152252227115325215327232);
  (0x8459, 0x459);
  (0x845a, 0x225227);
  (0x845b, 0x327127130427225227125230131330332320128132);
  (0x845c, 0x459225);
  (0x8461, 0x125130417132325131117352327225);
  (0x8463, 0x125127427225327227128325132130330332317);
  (0x8469, 0x225426227);
  (0x846b, 0x125325130320315132427332);
  (0x846c, 0x252454225325125152315115256330);
  (0x846d, 0x413327);
  (0x8471, 0x425204225125162215315227327220262325320362232);
  (0x8473, 0x100225325459227);
  (0x8475, 0x225125129327130332);
  (0x8476, 0x459125227);
  (0x8478, 0x252413);
  (0x847a, 0x252320413227);
  (0x8482, 0x327227413330229315129225329130300332252215230325220125331);
  (0x8487, 0x413);
  (0x8488, 0x413);
  (0x8489, 0x427);
  (0x848b, 0x127417227427327128125120130);
  (0x848c, 0x459);
  (0x848e, 0x413);
  (0x8497, 0x229413227330);
  (0x8499, 0x130330452127227132125152327120252230262320229256115129362162225100200128131156331352329325232220332228215);
  (0x849c, 0x225425125252315);
  (0x84a1, 0x225332459);
  (0x84af, 0x127427327);
  (0x84b2, 0x127427125225130229227135327129332);
  (0x84b4, 0x125413);
  (0x84b8, 0x125152452325256315115156227332232132225327252204130);
  (0x84b9, 0x413);
  (0x84ba, 0x125325);
  (0x84bd, 0x413125227);
  (0x84bf, 0x427227125225327);
  (0x84c1, 0x227459327);
  (0x84c4, 0x225152125452325200107252120215315156227327331);
  (0x84c7, 0x125);
  (0x84c9, 0x225227330417327215130232217315);
  (0x84ca, 0x162362);
  (0x84cd, 0x413125);
  (0x84d0, 0x413);
  (0x84d1, 0x125315);
  (0x84d3, 0x125129327);
  (0x84d6, 0x125);
  (0x84dd, 0x125127400117325130204227225327262132200104162232362315304215131317100220128129);
  (0x84df, 0x127427130227327225325);
  (0x84e0, 0x225459);
  (0x84e3, 0x232459);
  (0x84e5, 0x330230);
  (0x84e6, 0x107);
  (0x84ec, 0x100452127130230227101115362262315225327120435162325125330232427129320);
  (0x84fc, 0x427327125);
  (0x84ff, 0x225459220325330);
  (0x850a, 0x125);
  (0x8511, 0x252152125256156);
  (0x8513, 0x152225125325252120);
  (0x8517, 0x225125426325130332330227);
  (0x851a, 0x227427327130127120100402115125215104);
  (0x851f, 0x413);
  (0x8521, 0x127427330230327227128228132130);
  (0x852b, 0x452162262120252325362);
  (0x852c, 0x125225217117426332227132130315);
  (0x8537, 0x125325327);
  (0x8538, 0x435);
  (0x8539, 0x459327);
  (0x853a, 0x125427127227327230330);
  (0x853b, 0x225315459327227);
  (0x853c, 0x227413200327315);
  (0x853d, 0x200252225452325315152256320220327352);
  (0x8543, 0x230228325152125);
  (0x8548, 0x413225);
  (0x8549, 0x225426325327125227129320);
  (0x854a, 0x225426227327320325);
  (0x8556, 0x459227);
  (0x8559, 0x227426327125132);
  (0x855e, 0x459);
  (0x8564, 0x459200125);
  (0x8568, 0x125120225);
  (0x8572, 0x413130125327227);
  (0x8574, 0x152125225454227327230330130100252);
  (0x8579, 0x125);
  (0x857a, 0x459125);
  (0x857b, 0x225327);
  (0x857e, 0x225227325427327331125426);
  (0x8584, 0x400125200100127162362315225227252132320327220128215204104120325352332129304);
  (0x8585, 0x452);
  (0x8587, 0x413227225327325228);
  (0x858f, 0x125132);
  (0x859b, 0x127427327225227130);
  (0x859c, 0x427125327227);
  (0x85a4, 0x413125);
  (0x85a8, 0x413227);
  (0x85aa, 0x125425227225252215325315426327320220);
  (0x85ae, 0x413225);
  (0x85af, 0x225125132325);
  (0x85b0, 0x452227327152232);
  (0x85b7, 0x459225227);
  (0x85b9, 0x425225);
  (0x85c1, 0x413130);
  (0x85c9, 0x454252215200220256227232327);
  (0x85cf, 0x417252225230330125452132325152227127217332142104256327331115315220129130215320231352232329120156117304204200);
  (0x85d0, 0x152100);
  (0x85d3, 0x225320125);
  (0x85d5, 0x425327225125227115);
  (0x85dc, 0x413225325327227);
  (0x85e0, 0x125);
  (0x85e4, 0x425125327127227225104120129315232325130229132320);
  (0x85e9, 0x426227130125327225);
  (0x85fb, 0x426225125227325120327152330332230132);
  (0x85ff, 0x125);
  (0x8605, 0x459227327127);
  (0x8611, 0x125225132232352);
  (0x8616, 0x225426252220);
  (0x8618, 0x125);
  (0x8627, 0x459);
  (0x8629, 0x413227);
  (0x8638, 0x452252327227);
  (0x863c, 0x459125);
  (0x864e, 0x425225227125327315130232215115325200143132228330152320220230120129138352229328332331162100127128329);
  (0x864f, 0x426225332252227152325);
  (0x8650, 0x252152402215200125256132320262325);
  (0x8651, 0x252225454200256215315320227325327220330);
  (0x8654, 0x100125228);
  (0x865a, 0x407100125152200252315225227115104327215320101229156162325230362132330220232120);
  (0x865e, 0x127227327427252443230426330130315125128);
  (0x8662, 0x427227327215);
  (0x866b, 0x225425125325252227232327315215332331256220320317);
  (0x866c, 0x125);
  (0x866e, 0x413);
  (0x8671, 0x125225);
  (0x8679, 0x225227425231232130125325215315327104330331120332127);
  (0x867a, 0x459);
  (0x867b, 0x413225227);
  (0x867c, 0x459125227);
  (0x867d, 0x106406115315120320);
  (0x867e, 0x425225125227327115232325);
  (0x867f, 0x413227225);
  (0x8680, 0x252454256225325232152200215320125);
  (0x8681, 0x225426125325220315330320);
  (0x8682, 0x125320130115);
  (0x868a, 0x125426225325227327);
  (0x868b, 0x413227);
  (0x868c, 0x130125225330315);
  (0x868d, 0x115125120);
  (0x8693, 0x225459);
  (0x8695, 0x125225425152325227327232115320);
  (0x869c, 0x125225325);
  (0x869d, 0x425125);
  (0x86a3, 0x225459227325);
  (0x86a4, 0x413225325);
  (0x86a7, 0x459225);
  (0x86a8, 0x459332);
  (0x86a9, 0x417125);
  (0x86aa, 0x225459);
  (0x86ac, 0x413132);
  (0x86af, 0x125);
  (0x86b0, 0x125225);
  (0x86b1, 0x225125);
  (0x86b4, 0x413225);
  (0x86b6, 0x225125);
  (0x86ba, 0x459);
  (0x86c0, 0x452125252152325);
  (0x86c4, 0x459225);
  (0x86c6, 0x425125325);
  (0x86c7, 0x425225125315215227327325130320152220252243232330352);
  (0x86c9, 0x459225227);
  (0x86ca, 0x115152156);
  (0x86cb, 0x125425225325320252227315327232104332132);
  (0x86ce, 0x225413227325327);
  (0x86cf, 0x225125);
  (0x86d0, 0x125225325);
  (0x86d1, 0x459225);
  (0x86d4, 0x125325);
  (0x86d8, 0x413);
  (0x86d9, 0x426225125156327215320);
  (0x86db, 0x225125115325332);
  (0x86de, 0x459125);
  (0x86df, 0x227426125130327);
  (0x86e4, 0x125426325327225320227);
  (0x86e9, 0x413);
  (0x86ed, 0x413125225227);
  (0x86ee, 0x407200125225227100400325315120152115320203);
  (0x86f0, 0x152243);
  (0x86f1, 0x459125);
  (0x86f2, 0x125);
  (0x86f3, 0x459225);
  (0x86f4, 0x459125);
  (0x86f8, 0x459225);
  (0x86f9, 0x413225125);
  (0x86fe, 0x225125320315);
  (0x8700, 0x417130225125327132227443325320215120115);
  (0x8702, 0x125225425152207227115325327252220426320104315130);
  (0x8703, 0x315125);
  (0x8707, 0x225452325243);
  (0x8708, 0x125327);
  (0x8709, 0x125315320225);
  (0x870a, 0x225459);
  (0x870d, 0x225459);
  (0x8712, 0x252459225262125);
  (0x8713, 0x225459315227);
  (0x8715, 0x454152225115125);
  (0x8717, 0x125225152);
  (0x8718, 0x125132325);
  (0x871a, 0x152315125120);
  (0x871c, 0x125225425200227325315362262327320332252132330115);
  (0x871e, 0x459);
  (0x8721, 0x125425225325162252156232215362132262220115);
  (0x8722, 0x459225227);
  (0x8723, 0x125);
  (0x8725, 0x125225);
  (0x8729, 0x413);
  (0x872e, 0x413225315);
  (0x8731, 0x413);
  (0x8734, 0x225459);
  (0x8737, 0x152452);
  (0x873b, 0x125115325);
  (0x873e, 0x125);
  (0x873f, 0x152162);
  (0x8747, 0x225426227215120152125115332104);
  (0x8748, 0x125225325);
  (0x8749, 0x425152125227215327315225220);
  (0x874c, 0x125);
  (0x874e, 0x426125225325227327252);
  (0x8753, 0x225);
  (0x8757, 0x125225252);
  (0x8759, 0x125327);
  (0x8760, 0x225459325227);
  (0x8763, 0x225459);
  (0x8764, 0x125459);
  (0x8765, 0x225459);
  (0x876e, 0x125);
  (0x8770, 0x125);
  (0x8772, 0x125);
  (0x8774, 0x125130327);
  (0x8776, 0x225426125325227132327330215);
  (0x877b, 0x225);
  (0x877c, 0x125);
  (0x877d, 0x413227);
  (0x877e, 0x125);
  (0x8782, 0x225459332320);
  (0x8783, 0x125);
  (0x8785, 0x459225);
  (0x8788, 0x459225227);
  (0x878b, 0x459225);
  (0x878d, 0x225156152325452125252127332130227317331120204327215262232200320162115315362228330256117129);
  (0x8793, 0x115);
  (0x8797, 0x413);
  (0x879f, 0x225125325);
  (0x87a8, 0x413225325125);
  (0x87ab, 0x452125);
  (0x87ac, 0x225);
  (0x87ad, 0x413225);
  (0x87af, 0x425132125227);
  (0x87b3, 0x125132120115);
  (0x87b5, 0x325459);
  (0x87ba, 0x125426225325227104327330130230132);
  (0x87bd, 0x125459);
  (0x87c0, 0x225459);
  (0x87c6, 0x459225227325320);
  (0x87ca, 0x413125);
  (0x87cb, 0x125);
  (0x87d1, 0x125);
  (0x87d2, 0x125225130330);
  (0x87db, 0x459);
  (0x87e0, 0x227454125327130132230315215);
  (0x87e5, 0x225459);
  (0x87ea, 0x459125);
  (0x87ee, 0x459);
  (0x87f9, 0x426225125132332315252232);
  (0x87fe, 0x125228229115332);
  (0x8803, 0x225459);
  (0x880a, 0x459225);
  (0x8813, 0x425125);
  (0x8815, 0x152125162262120);
  (0x8816, 0x459225325);
  (0x881b, 0x459);
  (0x8821, 0x413227327130315152);
  (0x8822, 0x200400125115315100152227327);
  (0x8832, 0x413152);
  (0x8839, 0x125225215);
  (0x883c, 0x459125);
  (0x8840, 0x125425252325225120256315162100115320215332152204220117227232132327104331217);
  (0x8844, 0x413);
  (0x8845, 0x252413320256325327);
  (0x884c, 0x252125225452217325231152256156200207222238204227117315215327330320331230220127304115422352332107120143132232112343224324100130228229128356328317);
  (0x884d, 0x152156252125454227327332315215325228132256);
  (0x8854, 0x452225152252327227315125330325256);
  (0x8857, 0x425125142225230252315242227332212320132325330115327117156130256);
  (0x8859, 0x125225130329327325);
  (0x8861, 0x200252152227130225325427127215327232125315256201332204220129320228104352131);
  (0x8862, 0x130225);
  (0x8863, 0x125225426325252127315115327227120215256232320317332204330131130);
  (0x8865, 0x152452125156252320204315132325256327352227215225217115117332);
  (0x8868, 0x152225125252425325156332227331220256327232315204320215115238120132330);
  (0x8869, 0x425225459);
  (0x886b, 0x225426327227320232132325315);
  (0x886c, 0x125452152252225227232327);
  (0x886e, 0x229227413115315327129);
  (0x8870, 0x152402100225325156252320220125215227332315132);
  (0x8872, 0x238413325227);
  (0x8877, 0x225252215352207315107125104256325);
  (0x887d, 0x413252225215);
  (0x887e, 0x413227);
  (0x887f, 0x413227327);
  (0x8881, 0x127427327227128130125);
  (0x8882, 0x207426252315);
  (0x8884, 0x413225227);
  (0x8885, 0x162262115315362220320152);
  (0x8888, 0x125);
  (0x888b, 0x225435222125325232142224104227422215220230329);
  (0x888d, 0x225426125315325115);
  (0x8892, 0x152252454120);
  (0x8896, 0x225125452115104315204227252232325320120426327215);
  (0x889c, 0x125225426325232);
  (0x88a2, 0x452225);
  (0x88a4, 0x200413227);
  (0x88ab, 0x434125225107152100156104120117327232315252317230);
  (0x88ad, 0x452252152256315227125332325327);
  (0x88b1, 0x225413325);
  (0x88b4, 0x320);
  (0x88b7, 0x459125);
  (0x88bc, 0x459);
  (0x88c1, 0x225152125252452256200325156201215227132317327315331117);
  (0x88c2, 0x252125452152325215225256156320331104327115217315);
  (0x88c5, 0x125252152452225104325320256204156115315220331217232120227332132327304352207228117343);
  (0x88c6, 0x225325204125);
  (0x88c9, 0x413);
  (0x88ce, 0x413);
  (0x88d2, 0x413);
  (0x88d4, 0x225427227327);
  (0x88d5, 0x200227427327232132332330320130315328325215454304);
  (0x88d8, 0x127427125227225215327315129);
  (0x88d9, 0x426225125227104232327120215);
  (0x88df, 0x225459);
  (0x88e2, 0x225459);
  (0x88e3, 0x459152);
  (0x88e4, 0x125225426325217232227);
  (0x88e5, 0x225);
  (0x88e8, 0x315125127);
  (0x88f0, 0x225413);
  (0x88f1, 0x452252152);
  (0x88f3, 0x225426227327);
  (0x88f4, 0x127427327227128);
  (0x88f8, 0x402152120104362262200125315156);
  (0x88f9, 0x452225252152125115315220327325);
  (0x88fc, 0x413327227);
  (0x88fe, 0x426225);
  (0x8902, 0x426225125);
  (0x890a, 0x402100);
  (0x8910, 0x125325404426225132);
  (0x8912, 0x152452227115125156129130320456252);
  (0x8913, 0x225315);
  (0x8919, 0x413252);
  (0x891a, 0x127427327227);
  (0x891b, 0x262220459315);
  (0x8921, 0x125325);
  (0x8925, 0x225125343325232);
  (0x892a, 0x452152);
  (0x892b, 0x152);
  (0x8930, 0x413);
  (0x8934, 0x162320115);
  (0x8936, 0x125426225227325204327);
  (0x8941, 0x125115);
  (0x8944, 0x417130227327230129132329426454152229325125330);
  (0x895e, 0x225413);
  (0x895f, 0x225425315125204115227220327);
  (0x8966, 0x413227);
  (0x897b, 0x452225);
  (0x897f, 0x230130225142412112125330127143227325327212229132312129131332317217331315152117320329104232120215242342304252220352115218);
  (0x8981, 0x452204200252152207206125208106325225100320220315300120327201230115330156317215227);
  (0x8983, 0x127427227327);
  (0x8986, 0x152454125315252215227225320115156232132256325);
  (0x89c1, 0x452252152225200125315227327325215115206220352207320120307100122107238245229332322143228156232);
  (0x89c2, 0x225125152200454156252325227220232315256327330127215130320120230132115217332201331129);
  (0x89c4, 0x125152225304256426320252200300325156204227120356100307315162362215327331132220454117301229332217352115);
  (0x89c5, 0x152452252315220320227127454327);
  (0x89c6, 0x252125225454325152204217220331315115200256227215231356320332317232120156330117);
  (0x89c7, 0x413);
  (0x89c8, 0x252325256452225227320315454330327152332);
  (0x89c9, 0x152225252452207200215125227327325220320256329156129131127330230);
  (0x89ca, 0x152);
  (0x89cb, 0x413);
  (0x89cc, 0x413227);
  (0x89ce, 0x252459);
  (0x89cf, 0x454);
  (0x89d0, 0x252152413325256327227);
  (0x89d1, 0x452215252227);
  (0x89d2, 0x125225325435425330222212152215230232217320130227242422315327204342220229332252132156352142228135331);
  (0x89d6, 0x413);
  (0x89da, 0x426);
  (0x89dc, 0x413);
  (0x89de, 0x452225252);
  (0x89e3, 0x152252452125325225127331256132220156143215320200315227115327131130317120332100103217128352328117);
  (0x89e5, 0x115);
  (0x89e6, 0x252152452125315225115256325220304332132120204156227104320327);
  (0x89eb, 0x252);
  (0x89ef, 0x413);
  (0x89f1, 0x125);
  (0x89f3, 0x459152);
  (0x8a00, 0x225454245252315125325127320227152215115220206306238327204120207232228200331132330256332262);
  (0x8a07, 0x225459327227);
  (0x8a3e, 0x427127);
  (0x8a48, 0x413);
  (0x8a79, 0x127427128129227327130329);
  (0x8a89, 0x225152426252325227256220215454315232327125200120);
  (0x8a8a, 0x452152227125);
  (0x8a93, 0x454252125225152107315215227115327325320);
  (0x8b07, 0x413227);
  (0x8b26, 0x459);
  (0x8b66, 0x125152225217156252426256325200331352320117104327132120227);
  (0x8b6c, 0x152120);
  (0x8ba1, 0x252125256152452225325315331215120156127220117207332227320232307352115104327304229132328129);
  (0x8ba2, 0x252125152452156325104256);
  (0x8ba3, 0x125);
  (0x8ba4, 0x152252101452156125320352132215362162325225220227100115315331117);
  (0x8ba5, 0x152454215156227);
  (0x8ba6, 0x256413227);
  (0x8ba7, 0x252413256);
  (0x8ba8, 0x152252452325115256125156315120100215320104);
  (0x8ba9, 0x452252152325227215156220327230229320332256125330225130);
  (0x8baa, 0x252152);
  (0x8bab, 0x413252225220327);
  (0x8bad, 0x156256225452125152252227325115217327332331117215330317);
  (0x8bae, 0x225125252452152325256215232331220227115156327231217330320120);
  (0x8baf, 0x232225426325252231125227315331152256320215217332156132327);
  (0x8bb0, 0x125225152452252325332222232331227120320104115156327307132215200352217117317422304);
  (0x8bb2, 0x452152125252325156220206320130256217120115227317315);
  (0x8bb3, 0x252454215152115315256220227327);
  (0x8bb4, 0x152);
  (0x8bb5, 0x407);
  (0x8bb6, 0x200252152);
  (0x8bb7, 0x130262162200330);
  (0x8bb8, 0x122207252422127152130125222322227225132325327128315452229256338332330);
  (0x8bb9, 0x452125152215315225325156);
  (0x8bba, 0x225452125252206152256156320325306215132220245315227352332115232331120327304);
  (0x8bbc, 0x256454325220252125225215204117);
  (0x8bbd, 0x152252156454125256215315227);
  (0x8bbe, 0x256125152156452252331225325315220327227330106115204217130215320);
  (0x8bbf, 0x252152452325225156215217125320227256327331115127117332);
  (0x8bc0, 0x426225125152252156);
  (0x8bc1, 0x125252152217425225331325117256227200332317320327232352120315132215330304);
  (0x8bc2, 0x225413);
  (0x8bc3, 0x413327227129);
  (0x8bc4, 0x152156125252452225325256227217132220315331115327120117317);
  (0x8bc5, 0x152252);
  (0x8bc6, 0x225252325452152320315215220125207227100331120156115327256352204304132200);
  (0x8bc8, 0x452152256156200252315125215325332227225456);
  (0x8bc9, 0x252156152256425325125320215454120332304315227225);
  (0x8bca, 0x152252454125325225156217320256);
  (0x8bcb, 0x152);
  (0x8bcc, 0x454252);
  (0x8bcd, 0x425225125215252227315325327207220320115352);
  (0x8bce, 0x402413);
  (0x8bcf, 0x426125225227327130325);
  (0x8bd1, 0x252452125225152325227320327204256117220331132217);
  (0x8bd2, 0x413227327);
  (0x8bd3, 0x452152);
  (0x8bd4, 0x413);
  (0x8bd5, 0x152156256452252125225325215352217315320332227132331);
  (0x8bd6, 0x413152);
  (0x8bd7, 0x125425225227252327127220115325120329320304152215132232315228);
  (0x8bd8, 0x152252156);
  (0x8bd9, 0x454100);
  (0x8bda, 0x227200100400125315152252327115107120207225325132232317320331201228256220300103);
  (0x8bdb, 0x152315225215252115220);
  (0x8bdc, 0x459);
  (0x8bdd, 0x425225252245125238256220325320315306200215115206217120331152227327332232);
  (0x8bde, 0x152243343200325125225315320143);
  (0x8bdf, 0x125152);
  (0x8be0, 0x152125);
  (0x8be1, 0x100402125315152115327156);
  (0x8be2, 0x152256252454325227327331217332343125229);
  (0x8be3, 0x225452215227327);
  (0x8be4, 0x454252125227152);
  (0x8be5, 0x438252138152207107132315125227327);
  (0x8be6, 0x100101402252125152200215227362162327);
  (0x8be7, 0x100200320);
  (0x8be8, 0x125215252);
  (0x8be9, 0x413227252327);
  (0x8beb, 0x252256215152);
  (0x8bec, 0x152454156125252315);
  (0x8bed, 0x125225232426252215227452325220115327320127315152331352332131120130132);
  (0x8bee, 0x413252256227);
  (0x8bef, 0x225252125452152256156115227320120215220325315352);
  (0x8bf0, 0x125156252);
  (0x8bf1, 0x152156454125252100215120132256332327);
  (0x8bf2, 0x252454115227315220327);
  (0x8bf3, 0x452125);
  (0x8bf4, 0x452152252225245220206125120315228320215325352115207200256306156227104331327);
  (0x8bf5, 0x252454152227325256215327125225);
  (0x8bf6, 0x410);
  (0x8bf7, 0x452252152125325315227156327115320332215);
  (0x8bf8, 0x438127125122138152227252327130330320120115315128331);
  (0x8bf9, 0x413);
  (0x8bfa, 0x252227132427129327330127130125230229426232329325332225331220320454131162362215315);
  (0x8bfb, 0x252452152125256325204225217327220132227115332215331315200);
  (0x8bfc, 0x413225);
  (0x8bfd, 0x152125252156);
  (0x8bfe, 0x125425252225143152104325256227217);
  (0x8bff, 0x454252220);
  (0x8c00, 0x413252315);
  (0x8c01, 0x438152138315115320215120227327);
  (0x8c02, 0x413227327);
  (0x8c03, 0x156252152452225125325100327200320132256220232315115227352215130217331332317117120);
  (0x8c04, 0x152315115);
  (0x8c05, 0x252152452227130256327320);
  (0x8c06, 0x207107120320115315);
  (0x8c07, 0x413);
  (0x8c08, 0x452156152252256325215225115127125315232320120220332200227352327132317);
  (0x8c0a, 0x227225232327426330325252332331215256);
  (0x8c0b, 0x225152452325252125315227215327320256220330331115230156228);
  (0x8c0c, 0x427127227327);
  (0x8c0d, 0x225125325332);
  (0x8c0e, 0x426252125152325215227);
  (0x8c0f, 0x454227252152256327220315215125130);
  (0x8c10, 0x200402125100252227162320215332);
  (0x8c11, 0x413252262227);
  (0x8c12, 0x454252227327152);
  (0x8c13, 0x252452220225125204227327454256115);
  (0x8c14, 0x459227);
  (0x8c15, 0x426225125252454227327);
  (0x8c16, 0x413227);
  (0x8c17, 0x454125315);
  (0x8c18, 0x413227129);
  (0x8c19, 0x252152100320);
  (0x8c1a, 0x125225);
  (0x8c1b, 0x225152);
  (0x8c1c, 0x425125225252227352);
  (0x8c1d, 0x413);
  (0x8c1f, 0x413227327230330);
  (0x8c20, 0x413227327);
  (0x8c21, 0x413227225327);
  (0x8c22, 0x252127452152215227256325128229315327115125129320329130220132330);
  (0x8c23, 0x125225252426152227315156120327);
  (0x8c24, 0x252413325152256);
  (0x8c25, 0x454125227);
  (0x8c26, 0x327227100427152454115228125315120229330);
  (0x8c27, 0x200413227327228);
  (0x8c28, 0x100407200315152227115327325);
  (0x8c29, 0x152156125);
  (0x8c2a, 0x454152256227);
  (0x8c2b, 0x413);
  (0x8c2c, 0x200125427426225315325152227120);
  (0x8c2d, 0x127456427227215327128);
  (0x8c2e, 0x413);
  (0x8c2f, 0x427125327130330);
  (0x8c30, 0x125);
  (0x8c31, 0x225452325125426227252220200152320204327232332300256352);
  (0x8c32, 0x200413);
  (0x8c33, 0x413227);
  (0x8c34, 0x152454);
  (0x8c35, 0x125152);
  (0x8c36, 0x125);
  (0x8c37, 0x225125426127227230427325130327231330229332215143315252132120232328115320129);
  (0x8c41, 0x152452125100115107200227);
  (0x8c46, 0x225125425325227332327127320315232215352230115130252104132331220);
  (0x8c47, 0x125);
  (0x8c49, 0x225459125);
  (0x8c4c, 0x125325332);
  (0x8c55, 0x413315215);
  (0x8c5a, 0x225125);
  (0x8c61, 0x225425252152325125200327220426227130120320331352215232315100129330230332115);
  (0x8c62, 0x454152);
  (0x8c68, 0x125);
  (0x8c6a, 0x125100225402327227200129152325115320315220232132330229130);
  (0x8c6b, 0x200417130220227217125327315317225362262320330117132252331);
  (0x8c73, 0x413);
  (0x8c78, 0x225413330);
  (0x8c79, 0x225425125227232215426220315325327229);
  (0x8c7a, 0x125120115);
  (0x8c82, 0x425125225327325227252);
  (0x8c85, 0x225459);
  (0x8c89, 0x426215125);
  (0x8c8a, 0x413);
  (0x8c8c, 0x225426203232152315325215227320115220327120);
  (0x8c94, 0x125);
  (0x8c98, 0x413);
  (0x8d1d, 0x127225125332327417130227129330329132235325331229232252131117315);
  (0x8d1e, 0x327227427132225128125127315200120232325228100320331130104);
  (0x8d1f, 0x125152452252104156225325320315215307115217220103120304256327332227);
  (0x8d21, 0x125427127227252230330130426327454225229325129);
  (0x8d22, 0x125252425131117225331315217215220320227327115200120317325232332);
  (0x8d23, 0x252125325152225320426220256115156331215227117317327315332120217);
  (0x8d24, 0x227426125225327315252229100320220330115120232215352402);
  (0x8d25, 0x252452203152125225315325320256227200115100352327220215120156104101232);
  (0x8d26, 0x125425252225304220256325217215);
  (0x8d27, 0x125225425320325252120331256232156115317217315215227132231131117332330230343);
  (0x8d28, 0x225125426325152204252220227100232117104356256320327331156215315131132330200352120115332);
  (0x8d29, 0x452152225325125156115320256227);
  (0x8d2a, 0x152452100125115317315256120225);
  (0x8d2b, 0x100125402156152200103256117252320315120204220215115331227317325225);
  (0x8d2c, 0x152452252156125315220);
  (0x8d2d, 0x252152256125454156325332225320132120330217);
  (0x8d2e, 0x152452125256156325252217132227104);
  (0x8d2f, 0x152227252427207315204327225200222325454215125322104328320115120);
  (0x8d30, 0x422122125227322);
  (0x8d31, 0x400125200225252152220115327315215320227);
  (0x8d32, 0x427227225125327127);
  (0x8d33, 0x413);
  (0x8d34, 0x452225152252125156100200325256227315232132327320362262101);
  (0x8d35, 0x125200400130327227225100215330315152131132220129320115325228156120138331328329);
  (0x8d36, 0x413227);
  (0x8d37, 0x125225452217252325256227317215117352);
  (0x8d38, 0x156225217320125331107325425332304454117330132204317231227315426417);
  (0x8d39, 0x256225325125252452127100130152320129327227315120232207115329331215200132229203217332220128352101);
  (0x8d3a, 0x127454252130227152327156125128200230330320229325);
  (0x8d3b, 0x152454125327115227);
  (0x8d3c, 0x425225125315400115162320215120252325);
  (0x8d3d, 0x227413);
  (0x8d3e, 0x127427327227225330128220215129130120229230);
  (0x8d3f, 0x252152426325125117115454215256156352);
  (0x8d40, 0x413327215);
  (0x8d41, 0x252325452227);
  (0x8d42, 0x252426325315256);
  (0x8d43, 0x252125426315256225215);
  (0x8d44, 0x125256325225320252426104152220331217156130332232204120227327129132317215207117128);
  (0x8d45, 0x215454);
  (0x8d46, 0x413);
  (0x8d48, 0x152156220125);
  (0x8d49, 0x413327227229330);
  (0x8d4a, 0x452152125);
  (0x8d4b, 0x452152125225227425320220327252315232);
  (0x8d4c, 0x452152125252220115256156317);
  (0x8d4d, 0x413);
  (0x8d4e, 0x152156452125315);
  (0x8d4f, 0x252452152125100225320115325227215327256220156315332);
  (0x8d50, 0x452225252327152227256156315320325);
  (0x8d53, 0x227427327);
  (0x8d54, 0x152452252125120256332325115227156);
  (0x8d55, 0x413);
  (0x8d56, 0x252452225127325152352327120125227129215200331329315220230330229320);
  (0x8d58, 0x203402252125152320227);
  (0x8d59, 0x454152);
  (0x8d5a, 0x452152252125227320220);
  (0x8d5b, 0x256225452125132327227127252230152456325332143232330329129217115130156315320229120);
  (0x8d5c, 0x413227327);
  (0x8d5d, 0x405125);
  (0x8d5e, 0x152252452227125327130225417156129115454228220120229215332132131329);
  (0x8d60, 0x252152452125256325227327156);
  (0x8d61, 0x454152125156225);
  (0x8d62, 0x452152125252225227327132325);
  (0x8d63, 0x417130217332132327227125112427);
  (0x8d64, 0x125454130227162402115100225327152215132127104129332229315120331325330362320262);
  (0x8d66, 0x152252215315125325256220156);
  (0x8d67, 0x413327200152227329);
  (0x8d6b, 0x127227327162427200435129235130135229315262330115325332132232329220131120362230331);
  (0x8d6d, 0x125104);
  (0x8d70, 0x452152125252315120325156115320220256215352100225227330200304217243104327);
  (0x8d73, 0x459262362);
  (0x8d74, 0x452252152215315115327320227);
  (0x8d75, 0x127427227327128243130215230125129);
  (0x8d76, 0x107152452252315115220325230143);
  (0x8d77, 0x152452252242125222320107156315352215422327325200332256220227230100115132104300225228207120145331306129143204328);
  (0x8d81, 0x452107134434115227120327);
  (0x8d84, 0x252452352);
  (0x8d85, 0x152452125227104327100200252114132142120117107156115217228130330162153131101256127315);
  (0x8d8a, 0x407107207252130200227152127125325327156230225132232304315117215131120115320262217228129330343);
  (0x8d8b, 0x125152452207215115320227156325);
  (0x8d91, 0x152);
  (0x8d94, 0x152352);
  (0x8d9f, 0x222435422252125120352);
  (0x8da3, 0x225200125426252315220215352320325300227327402);
  (0x8db1, 0x413227);
  (0x8db3, 0x200252400152325125315107215262225352207138320117112331115227327330230132220256317217204231153129);
  (0x8db4, 0x152452);
  (0x8db5, 0x125413);
  (0x8db8, 0x454125107);
  (0x8dba, 0x413152252);
  (0x8dbc, 0x413327);
  (0x8dbe, 0x225325115125);
  (0x8dbf, 0x452152);
  (0x8dc3, 0x252152454256201327227320115315332325304220125130120215225156228200);
  (0x8dc4, 0x252262362459);
  (0x8dc6, 0x125);
  (0x8dcb, 0x227426152100315225115125156252);
  (0x8dcc, 0x252452125152317362162320120325156100);
  (0x8dce, 0x459252315);
  (0x8dcf, 0x459152);
  (0x8dd1, 0x452252152125325225120230320256130215220132352315156330332331);
  (0x8dd6, 0x413325125227);
  (0x8dd7, 0x125);
  (0x8dda, 0x252459220227256);
  (0x8ddb, 0x125152400);
  (0x8ddd, 0x125434225252325332307232320256);
  (0x8dde, 0x459227);
  (0x8ddf, 0x434152452112225125252307325352320327132156227107);
  (0x8de3, 0x413315);
  (0x8de4, 0x426252256);
  (0x8de8, 0x452152125156104252225120217);
  (0x8dea, 0x452152252125156);
  (0x8deb, 0x459227);
  (0x8dec, 0x413320125);
  (0x8def, 0x225425125222142252230325232152320127227130238220330422215129327229132315212331322256332231335317204115329342120200228224112217);
  (0x8df3, 0x452152252156125215220315227325330225256104352331320162362327115132332);
  (0x8df5, 0x252152454229325327227220156);
  (0x8df7, 0x200452125325100225252227);
  (0x8df8, 0x252413);
  (0x8df9, 0x459252);
  (0x8dfa, 0x452152352);
  (0x8dfb, 0x152);
  (0x8dfd, 0x413);
  (0x8e05, 0x452227);
  (0x8e09, 0x152162362);
  (0x8e0a, 0x101);
  (0x8e0c, 0x152115120);
  (0x8e0f, 0x452152252100125307315325232362162156115327120256304130);
  (0x8e14, 0x413115);
  (0x8e1d, 0x225125325);
  (0x8e1e, 0x252454215315);
  (0x8e1f, 0x152);
  (0x8e22, 0x452152215125120325);
  (0x8e23, 0x413);
  (0x8e29, 0x452152125);
  (0x8e2a, 0x252125426225215315204325332256320232);
  (0x8e2c, 0x454);
  (0x8e2e, 0x452152);
  (0x8e2f, 0x152325);
  (0x8e31, 0x452152);
  (0x8e35, 0x315413252215115225);
  (0x8e39, 0x452);
  (0x8e3a, 0x125);
  (0x8e3d, 0x162262115315);
  (0x8e40, 0x152413);
  (0x8e41, 0x152413);
  (0x8e42, 0x152156);
  (0x8e44, 0x325225125426215204332220227330132);
  (0x8e47, 0x427215227402252);
  (0x8e48, 0x225325252315454215331152343227);
  (0x8e49, 0x152115);
  (0x8e4a, 0x100320200315125);
  (0x8e4b, 0x252452256);
  (0x8e51, 0x162362452152115);
  (0x8e52, 0x152320156);
  (0x8e59, 0x454152315);
  (0x8e60, 0x225);
  (0x8e66, 0x452152320352315362262125325227);
  (0x8e69, 0x100);
  (0x8e6c, 0x452225152200125327252325);
  (0x8e6d, 0x452252262362100);
  (0x8e6f, 0x413);
  (0x8e70, 0x252459);
  (0x8e72, 0x452152125120);
  (0x8e74, 0x315413125);
  (0x8e76, 0x315413352215);
  (0x8e7c, 0x425152225125);
  (0x8e7f, 0x452152320);
  (0x8e81, 0x200452152100215125220156362262327);
  (0x8e85, 0x252459225);
  (0x8e87, 0x252315320459);
  (0x8e8f, 0x252256459);
  (0x8e90, 0x413);
  (0x8e94, 0x413);
  (0x8e9c, 0x413);
  (0x8e9e, 0x252);
  (0x8eab, 0x125252142225238426152112315222207115256325320215200204120227220327232307422332228352201);
  (0x8eac, 0x152426454252315227120325115);
  (0x8eaf, 0x125225426220252215);
  (0x8eb2, 0x452152320120252315352227215220);
  (0x8eba, 0x452152252125227320325);
  (0x8f66, 0x225125425252325142127238331222117230130220152315204231256217330104232132422227115215327332120320229);
  (0x8f67, 0x252452152125325256332327217132227);
  (0x8f68, 0x125426225252204256325227132320215200);
  (0x8f69, 0x227427127115125100327426315130232132);
  (0x8f6b, 0x413);
  (0x8f6c, 0x152452252125156256325106315107227115143215200120320327220307225117304352217356332132317);
  (0x8f6d, 0x413325);
  (0x8f6e, 0x435125225222152325238107104422232156217331320130332231227315204304327228132);
  (0x8f6f, 0x125400200100152120162117252225262115215132331104227217320327315325352201203);
  (0x8f70, 0x152452125115315133107252156333227362162120320);
  (0x8f71, 0x125152325320);
  (0x8f72, 0x459227327);
  (0x8f73, 0x225459);
  (0x8f74, 0x425225125325320232332132227435252352207224330215);
  (0x8f75, 0x413130);
  (0x8f76, 0x125);
  (0x8f78, 0x227413327);
  (0x8f79, 0x413227);
  (0x8f7a, 0x413);
  (0x8f7b, 0x400107200100125207252325162362152104315115117215156320352227327120130332217330232132220101331304);
  (0x8f7c, 0x225227413228);
  (0x8f7d, 0x252452125152204222256104225320315156325227215327422228115304132332);
  (0x8f7e, 0x227459);
  (0x8f7f, 0x125426417225325320220);
  (0x8f82, 0x413227327);
  (0x8f83, 0x407207100107252152134325215104156125130320332);
  (0x8f84, 0x207409315252413);
  (0x8f85, 0x225156152454125426227252327132315332320325230217);
  (0x8f86, 0x222225422435224325331122232322);
  (0x8f87, 0x413225332227);
  (0x8f88, 0x322225425125238222152320135220215343325315122422);
  (0x8f89, 0x227100427225125315327252426130152325215230332132232131330129220);
  (0x8f8a, 0x225232125);
  (0x8f8b, 0x225413);
  (0x8f8d, 0x454152252220);
  (0x8f8e, 0x125);
  (0x8f8f, 0x426252);
  (0x8f90, 0x152125325426332104225142132232227320);
  (0x8f91, 0x225435325152220256227422320454222125327252156);
  (0x8f93, 0x256152452325125156252120130331217215327132220227332117);
  (0x8f94, 0x125252315);
  (0x8f95, 0x225125327315330252227);
  (0x8f96, 0x452252325125225152142256);
  (0x8f97, 0x152115120);
  (0x8f98, 0x225125320220252);
  (0x8f99, 0x225215425227252200332220228327);
  (0x8f9a, 0x459327227);
  (0x8f9b, 0x152127100132427227200122330315162362327130229125225331129215325329230320120203131128332);
  (0x8f9c, 0x152225127427220215227325);
  (0x8f9e, 0x152452252225125215315227325320256232253220120327331115);
  (0x8f9f, 0x252452127152200315320327256215125227);
  (0x8fa3, 0x125452200262362400215327325220332204320227100162225);
  (0x8fa8, 0x152454252100325256227156220315125);
  (0x8fa9, 0x152125252454156325227120256253225220200215320115100);
  (0x8fab, 0x125426225325352320204);
  (0x8fb0, 0x225426227327232125222315132129215423230130322143343320331);
  (0x8fb1, 0x252225426152315454325215256227220156332);
  (0x8fb9, 0x407212242207125225238142127230262112204325330227252104315352320152327229220228117215134332217317128331312232300256132);
  (0x8fbd, 0x130417100230327227143117132225131129142330315125229217);
  (0x8fbe, 0x452152252200227225320232330230129127327332229130125325215228329315231132220115331256328100120131101);
  (0x8fc1, 0x452152252256227125325156327215230130228330320315);
  (0x8fc2, 0x152100400115156125327227);
  (0x8fc4, 0x107120452454227);
  (0x8fc5, 0x101227100402327107115162125132331330332);
  (0x8fc7, 0x447234252125152206143107207101320100257156200120220325315225127307132115230352327130306215212135300227104332229342);
  (0x8fc8, 0x152452129200327227262329130230330132228225232320);
  (0x8fce, 0x152452252107327156115127227120125220215320256325130315117);
  (0x8fd0, 0x125156152225252452332325320256317200217330120227327315130352132232115331117220231215131);
  (0x8fd1, 0x400143252212243120125207152142107100200225112104315117115327320325129132331328156228304256227220130);
  (0x8fd3, 0x413);
  (0x8fd4, 0x152452252220125215320115225315227156104325);
  (0x8fd5, 0x413);
  (0x8fd8, 0x407152106252315125320156132120327227215325127130220);
  (0x8fd9, 0x138438124141120107106320125132115143);
  (0x8fdb, 0x152252452156107125200106325227327320228220215256331232217352115225315230332330117317131132127204328130229120);
  (0x8fdc, 0x400207200152107125142227104325130162362327342315230143232252228229204262115220215330127120225331320100131304132203332212217129256156117);
  (0x8fdd, 0x156152454252125120215115104227117217315327);
  (0x8fde, 0x445100107152125252207127230330156134120327325225227130315104162128320256331115215129332132217329317220362231232229);
  (0x8fdf, 0x400100107252207152227220327362162127320215125115143256325315128);
  (0x8fe2, 0x215315262162320220);
  (0x8fe4, 0x459162262327);
  (0x8fe5, 0x100115401227402107120327);
  (0x8fe6, 0x413130227327325230330125129232229);
  (0x8fe8, 0x413227);
  (0x8fe9, 0x413215220225227315);
  (0x8fea, 0x127130227327232427332330132329129230229256325331131125315252228);
  (0x8feb, 0x152207252454200100115125256325215156104201);
  (0x8fed, 0x407207152256252227120156215330320327125129220332225);
  (0x8fee, 0x427);
  (0x8ff0, 0x204252256454225206152227325327220125115328104);
  (0x8ff7, 0x252152452100125225320104315362162120227200232215115256156329132327262129103);
  (0x8ff8, 0x452152);
  (0x8ff9, 0x225125426252215315327227320220325229);
  (0x8ffd, 0x152452125252320315115156215120227327325132220);
  (0x9000, 0x152452252125156315356120220215325115256117327217320352132227);
  (0x9001, 0x452152252325125315256227156320120225115132327232332);
  (0x9002, 0x152100200454101125325107227115402104315203120327252228156220328);
  (0x9003, 0x152452252215125315115317325256220332117156132);
  (0x9004, 0x127427431);
  (0x9005, 0x252459315);
  (0x9006, 0x125454152153426252315225325107115104100156227320256217327117200120132);
  (0x9009, 0x152252452125325225256320156227204217327132120232115215332228331);
  (0x900a, 0x227454200232229100125327152304215230320132330329225130331);
  (0x900b, 0x413327229227);
  (0x900d, 0x100115125101130327);
  (0x900f, 0x152452100252125325232200215162120217320104156256332132220327225315362129262);
  (0x9010, 0x107252452325152315454320125115256120332);
  (0x9011, 0x413215227);
  (0x9012, 0x252152452256156325227231125220120130230);
  (0x9014, 0x225125142207204426315152320325242227215217252342);
  (0x9016, 0x227413327);
  (0x9017, 0x152452252125100227327256325);
  (0x901a, 0x134125225152452256107252117200156325232227120331127130100162230320222315233231215220115131327330132362262129217207422332229317104304228);
  (0x901b, 0x452252152215);
  (0x901d, 0x152252454215256125220120);
  (0x901e, 0x454152252120315327227115215);
  (0x901f, 0x207125225201252325426262232152200315332256204227327104156320115215330231132352331);
  (0x9020, 0x252152325125452256225156204320120227315220331230327115215332304100);
  (0x9021, 0x413152327);
  (0x9022, 0x452252315215115327120227152256320);
  (0x9026, 0x262459227);
  (0x902d, 0x454);
  (0x902e, 0x152452125);
  (0x902f, 0x427127);
  (0x9035, 0x227413);
  (0x9036, 0x162);
  (0x9038, 0x454227252315327200402125215262204152115232127217);
  (0x903b, 0x125252325320332256120);
  (0x903c, 0x452152252315100115162156320327120256);
  (0x903e, 0x454152315320227143);
  (0x9041, 0x454252152115227125);
  (0x9042, 0x407227452152130327252125220200315325129225115215320328);
  (0x9044, 0x413315);
  (0x9047, 0x152225452252227215220327125320325315115330256127156);
  (0x904d, 0x201222152435252200325315125115356320422212220352);
  (0x904f, 0x152454215252327315115);
  (0x9050, 0x152315320156402125115227327);
  (0x9051, 0x402125);
  (0x9052, 0x100220);
  (0x9053, 0x435252225125207222325327227215132220117230200152127320315142330130232331422224324115143129328229300307242317120131332362228262352203217304342);
  (0x9057, 0x125156152100454426252325225315215330115227327320331304120);
  (0x9058, 0x413227);
  (0x905b, 0x452152252);
  (0x9062, 0x200262459);
  (0x9063, 0x454252152204325315125256120115);
  (0x9065, 0x100152125402426156200120115315320162262227230325220201330327307107);
  (0x9068, 0x152454327);
  (0x906d, 0x152452125222252225215422115);
  (0x906e, 0x152452330115125352220120132315320156130327);
  (0x9074, 0x152);
  (0x9075, 0x152427130454327227132120330156);
  (0x907d, 0x200107);
  (0x907f, 0x152252452320125156315115130330227327352120325);
  (0x9080, 0x152452252125227115256327);
  (0x9082, 0x152115);
  (0x9083, 0x200402227);
  (0x9088, 0x227402100327);
  (0x908b, 0x100162362);
  (0x9091, 0x426227225230327330215228238229);
  (0x9093, 0x127427130227125327128129);
  (0x9095, 0x227417130327);
  (0x9097, 0x130413227327);
  (0x9099, 0x130413227);
  (0x909b, 0x413130227);
  (0x909d, 0x127427);
  (0x90a1, 0x413230330);
  (0x90a2, 0x127427130227327132);
  (0x90a3, 0x138438127124106230130143343330243227120225229327325132232329320125129332331315);
  (0x90a6, 0x225227426327231230330331325232125362262129329215343315130252132229332320228127);
  (0x90aa, 0x400125100252225200227315215120115103);
  (0x90ac, 0x427127);
  (0x90ae, 0x125452230117152325256331332156320225317330131252217227132);
  (0x90af, 0x130115125131);
  (0x90b0, 0x427127327227);
  (0x90b1, 0x127427327227330230130);
  (0x90b3, 0x413130330);
  (0x90b4, 0x127427);
  (0x90b5, 0x127427130125227327128230330);
  (0x90b6, 0x413);
  (0x90b8, 0x427225227127125230);
  (0x90b9, 0x127427130128227327431);
  (0x90ba, 0x413227327);
  (0x90bb, 0x125452252152225227315132320327325220215256156130);
  (0x90be, 0x413);
  (0x90c1, 0x200127100125262427152315115325227162327225252362128320332130132);
  (0x90c4, 0x427127);
  (0x90c5, 0x413227327);
  (0x90c7, 0x427127);
  (0x90ca, 0x242142225426230227125217152330325342320115304);
  (0x90ce, 0x225426227127125325327222217330315320229220230329235120131232352233);
  (0x90cf, 0x427130127);
  (0x90d0, 0x413);
  (0x90d1, 0x130127427128131230100227330115117327229417132);
  (0x90d3, 0x130413);
  (0x90d7, 0x127227427);
  (0x90db, 0x413);
  (0x90dc, 0x427127227);
  (0x90dd, 0x127427227327128);
  (0x90e1, 0x425227125130327225230329);
  (0x90e2, 0x413227130327);
  (0x90e6, 0x127227427128327);
  (0x90e7, 0x130413125227);
  (0x90e8, 0x125212225222322435325231152320238422324217117331227104252327232230315204304229352242330132156317);
  (0x90eb, 0x130);
  (0x90ed, 0x127427225227330327130128315325230);
  (0x90ef, 0x413130327);
  (0x90f4, 0x130417227327);
  (0x90f8, 0x230330130315325331);
  (0x90fd, 0x407230125225207252330127130325327227232331152229332132156129256315104128329);
  (0x90fe, 0x129413130227);
  (0x9102, 0x130127417227217117132327332317125131232330331);
  (0x9104, 0x413130227);
  (0x9119, 0x152402200138100320125156227315115);
  (0x911e, 0x413130);
  (0x9122, 0x427127125227130);
  (0x9123, 0x413130);
  (0x912f, 0x130413);
  (0x9131, 0x130330);
  (0x9139, 0x413);
  (0x9143, 0x413227);
  (0x9146, 0x427127227);
  (0x9149, 0x222130322230220227143);
  (0x914a, 0x315426125252225);
  (0x914b, 0x125230426330225331227);
  (0x914c, 0x252454107215152227120);
  (0x914d, 0x152256252452156125100325200132220217227225232327201315317115320330);
  (0x914e, 0x413);
  (0x9150, 0x225232413325);
  (0x9152, 0x425125225252256325130143315227115331152231232132215327220120320352104330131332129);
  (0x9157, 0x152);
  (0x915a, 0x225425232125132325120332);
  (0x915d, 0x152143);
  (0x915e, 0x132413225);
  (0x9161, 0x454);
  (0x9162, 0x413252);
  (0x9163, 0x402152100262115107315125227327);
  (0x9164, 0x413);
  (0x9165, 0x400125100225152362204325262227162215327);
  (0x9169, 0x115152);
  (0x916a, 0x225132125325);
  (0x916c, 0x225426252152125454220325215332156320352);
  (0x916e, 0x413225232325125332);
  (0x916f, 0x426225232125325220332132);
  (0x9170, 0x125325459332225320232);
  (0x9171, 0x425225125452325315320215232104132);
  (0x9172, 0x413);
  (0x9174, 0x413);
  (0x9175, 0x252125325256152331132);
  (0x9176, 0x425225220325125232227);
  (0x9177, 0x200152407125100325320227120143);
  (0x9178, 0x225325425125332232200100162252132203356152362115400220320315103256104);
  (0x9179, 0x454);
  (0x917d, 0x400);
  (0x917e, 0x454);
  (0x917f, 0x156252152452125225343227);
  (0x9185, 0x413);
  (0x9187, 0x225402232100227332200125132325229115327162315);
  (0x9189, 0x452227252327125152127325256315215115228162220130320232132);
  (0x918b, 0x425125225215252232325132320152332);
  (0x918c, 0x225413232);
  (0x918d, 0x125115459);
  (0x9190, 0x225315);
  (0x9191, 0x413);
  (0x9192, 0x252452200152100220227215256327125320325120);
  (0x919a, 0x225425232227);
  (0x919b, 0x225425232325125320332);
  (0x91a2, 0x413);
  (0x91aa, 0x125262);
  (0x91ad, 0x413);
  (0x91ae, 0x413252327);
  (0x91af, 0x413);
  (0x91b4, 0x130125);
  (0x91b5, 0x413);
  (0x91ba, 0x413262362252);
  (0x91c7, 0x152156452252125225127315215327325227132229130217200129332256220320117);
  (0x91c9, 0x425125225227325132);
  (0x91ca, 0x252152426225127125325315454227156256320162327132317215);
  (0x91cc, 0x412238242222235225112330230327229125329243325227130129207127315212215362320220422332115331132232228333135104120322122131107335);
  (0x91cd, 0x100125200152400252107156225130325222204104315327320162215143362220262115217120227132332207117131331317256201422129304135235328228330);
  (0x91ce, 0x125225104404100400252142227230325256215132331327200315115229156129232220320330217152127332120103130228);
  (0x91cf, 0x225425222252256207125325152220200204227120322304201320352217115215232315332331327330156218253);
  (0x91d1, 0x225125404127325426327132130227331252128332232330115220230129320315162217120143229243104304343204215329222117131100231228356256235328);
  (0x91dc, 0x315130115225);
  (0x9274, 0x134156252152225427227125215426315327129130325352454256132115232331320);
  (0x928e, 0x413227327);
  (0x92ae, 0x413325125330227327252204);
  (0x92c8, 0x413227);
  (0x933e, 0x452227125);
  (0x936a, 0x459225);
  (0x938f, 0x413104227327);
  (0x93ca, 0x125);
  (0x93d6, 0x152);
  (0x943e, 0x413327227);
  (0x946b, 0x227427327332132231232);
  (0x9486, 0x413);
  (0x9487, 0x413332227);
  (0x9488, 0x134225125425152315115104252217325227215120204229232352327207132320220156);
  (0x9489, 0x452125225315120227215220320232325352327152);
  (0x948a, 0x227413327);
  (0x948b, 0x426);
  (0x948d, 0x426227);
  (0x948e, 0x225426125227);
  (0x948f, 0x327427227);
  (0x9490, 0x413);
  (0x9492, 0x425225332227125);
  (0x9493, 0x152452130125252315320227120330225115);
  (0x9494, 0x413);
  (0x9495, 0x413125227327);
  (0x9497, 0x227229327426325225215125315);
  (0x9499, 0x425225125325152232132156227);
  (0x949a, 0x425);
  (0x949b, 0x425132225125325232327227);
  (0x949c, 0x413327227);
  (0x949d, 0x400200152215125100);
  (0x949e, 0x426125225227325327256331);
  (0x949f, 0x222425125225127235327227152130224220315215330325252115232328320128);
  (0x94a0, 0x425225232132125227332327);
  (0x94a1, 0x425125225227232327325);
  (0x94a2, 0x125225425325331227332252217327232132104231215320256120129228152330452117131);
  (0x94a3, 0x413125);
  (0x94a4, 0x454227125327);
  (0x94a5, 0x125426225227325215327);
  (0x94a6, 0x227427327417152125115130426454230129320330229);
  (0x94a7, 0x227435327125315215115320);
  (0x94a8, 0x425125325225232132332);
  (0x94a9, 0x425252225125452232152227325115215220320);
  (0x94aa, 0x413327);
  (0x94ab, 0x413227327);
  (0x94ac, 0x426);
  (0x94ad, 0x427127327227);
  (0x94ae, 0x225127427125227327304);
  (0x94af, 0x413225227327232);
  (0x94b0, 0x227413327);
  (0x94b1, 0x425127252225125200130325235315129227128327132220232330320256229332352215);
  (0x94b2, 0x413227);
  (0x94b3, 0x452125152225227325115232);
  (0x94b4, 0x426225325125132232);
  (0x94b5, 0x426125225327227230315);
  (0x94b7, 0x413);
  (0x94b9, 0x425225227);
  (0x94ba, 0x426227225327215);
  (0x94bb, 0x452152125200225227117332315156327115220252325232132);
  (0x94bc, 0x426125232325227132327);
  (0x94bd, 0x426125332);
  (0x94be, 0x425125225232132332227325);
  (0x94bf, 0x413227225327);
  (0x94c0, 0x425125225325327227);
  (0x94c1, 0x125225425332325127327331227252215130217162131115315320232330152132229452107104120220129256352230317328117128);
  (0x94c2, 0x425125227327);
  (0x94c3, 0x325225426125127227232327215320315132331304252220);
  (0x94c4, 0x200315);
  (0x94c5, 0x425125152130232325225327227204132320332352);
  (0x94c6, 0x125152426454);
  (0x94c8, 0x425325232);
  (0x94c9, 0x227413327);
  (0x94ca, 0x413);
  (0x94cb, 0x413227225);
  (0x94cc, 0x426);
  (0x94cd, 0x413225227);
  (0x94ce, 0x227427327225);
  (0x94d0, 0x225452);
  (0x94d1, 0x413);
  (0x94d2, 0x413);
  (0x94d5, 0x425);
  (0x94d6, 0x227413);
  (0x94d7, 0x413);
  (0x94d9, 0x427125);
  (0x94db, 0x225433315227327);
  (0x94dc, 0x425125225325130227129332327115132232217343330331315);
  (0x94dd, 0x425125225232217327104332132325227331);
  (0x94de, 0x459);
  (0x94df, 0x425232225227);
  (0x94e0, 0x125);
  (0x94e1, 0x452125);
  (0x94e2, 0x325222225315435422227);
  (0x94e3, 0x454125227152232132327);
  (0x94e4, 0x115);
  (0x94e5, 0x413);
  (0x94e7, 0x459225125227327);
  (0x94e8, 0x227413152327);
  (0x94e9, 0x413115152);
  (0x94ea, 0x413);
  (0x94eb, 0x413227327);
  (0x94ec, 0x425225125325227132232426332);
  (0x94ed, 0x227125426327225152315454120115);
  (0x94ee, 0x100200320220362162227327228120152);
  (0x94ef, 0x413225);
  (0x94f0, 0x452125152132332227);
  (0x94f1, 0x425426125227132);
  (0x94f2, 0x452152125225132227);
  (0x94f3, 0x426225227);
  (0x94f5, 0x225125232);
  (0x94f6, 0x125331426127225227232130325327217317132315104304117204330332256100120129252131220320);
  (0x94f7, 0x413327);
  (0x94f8, 0x452152125252227225156320115327325132328);
  (0x94f9, 0x413);
  (0x94fa, 0x452225152125115130230156100252232320325330132315332);
  (0x94fc, 0x413227);
  (0x94fd, 0x413);
  (0x94fe, 0x225426125435120227204232320327332107132);
  (0x94ff, 0x100433227115333133327);
  (0x9500, 0x156252125256325452225152317115100220215320331120217332227315318);
  (0x9501, 0x452252256152225125325327320227315132100232228352129215304229130);
  (0x9502, 0x425132232227225);
  (0x9503, 0x162120);
  (0x9504, 0x452125152227327120225252);
  (0x9505, 0x425225125325252320315220120352215132228327227);
  (0x9506, 0x125129225232325);
  (0x9507, 0x413);
  (0x9508, 0x325125252425204225452152120332256227327);
  (0x9509, 0x425452125225);
  (0x950b, 0x225325252227427100125315426320327256115331220330228352);
  (0x950c, 0x425225227325125232132327);
  (0x950d, 0x413);
  (0x950e, 0x413);
  (0x950f, 0x413225327);
  (0x9510, 0x200400125152227100427327107215352225120325115232320);
  (0x9511, 0x426325125232227);
  (0x9512, 0x115125);
  (0x9513, 0x413227);
  (0x9514, 0x413125);
  (0x9515, 0x413);
  (0x9516, 0x459327227);
  (0x9517, 0x425225227327232);
  (0x9518, 0x413227);
  (0x9519, 0x125200425452252152225215115227230315162100156325256320317352129130220204329330);
  (0x951a, 0x425125252117225152104);
  (0x951b, 0x452227327125);
  (0x951d, 0x413);
  (0x951e, 0x413327227);
  (0x951f, 0x227413327);
  (0x9521, 0x425327230130125227132330325332225129232117229331);
  (0x9522, 0x413252225125256);
  (0x9523, 0x425125315225320115252227330215232327);
  (0x9524, 0x426225227325125222152315435320422332329232);
  (0x9525, 0x452125325225320232315227215115);
  (0x9526, 0x125426327130417227225115132315230330317325215129328220252402232152);
  (0x9528, 0x425225426);
  (0x9529, 0x452);
  (0x952a, 0x452);
  (0x952b, 0x413);
  (0x952c, 0x413227);
  (0x952d, 0x225435222125232422227327252);
  (0x952e, 0x225425325125227327120427152104304332);
  (0x952f, 0x125452252225325132425315);
  (0x9530, 0x425125325225232227327);
  (0x9531, 0x115413125327);
  (0x9532, 0x115);
  (0x9534, 0x227413327);
  (0x9535, 0x200433315333233227327);
  (0x9536, 0x426225232132227);
  (0x9537, 0x413227327);
  (0x9538, 0x425);
  (0x9539, 0x425225327227);
  (0x953a, 0x427227327);
  (0x953b, 0x152125454225320332232227252327156);
  (0x953e, 0x435227);
  (0x953f, 0x413);
  (0x9540, 0x125152452252325225256132);
  (0x9541, 0x425225325125227132232327);
  (0x9542, 0x152156252125115215315);
  (0x9544, 0x413);
  (0x9545, 0x413);
  (0x9546, 0x459);
  (0x9547, 0x425225230152227125130352100327238252229156325217129132115330332117131304228104);
  (0x9549, 0x425225426232);
  (0x954a, 0x452125);
  (0x954c, 0x454152327227);
  (0x954d, 0x425125225227);
  (0x954e, 0x413);
  (0x954f, 0x125);
  (0x9550, 0x425227426225125327);
  (0x9551, 0x422222235435227);
  (0x9552, 0x435227);
  (0x9553, 0x413225232227327);
  (0x9554, 0x125);
  (0x9555, 0x327);
  (0x9556, 0x225425227125);
  (0x9557, 0x433125227);
  (0x9558, 0x413327);
  (0x955a, 0x325);
  (0x955b, 0x227413);
  (0x955c, 0x225426125232327227325130220252352117315115320330215129331);
  (0x955d, 0x225413227);
  (0x955e, 0x426225327);
  (0x9561, 0x427);
  (0x9562, 0x125);
  (0x9563, 0x225125);
  (0x9564, 0x413);
  (0x9565, 0x413);
  (0x9566, 0x413227232);
  (0x9567, 0x125);
  (0x9568, 0x413);
  (0x9569, 0x225413);
  (0x956b, 0x413225215227);
  (0x956c, 0x413);
  (0x956d, 0x425227104327);
  (0x956f, 0x225125332);
  (0x9570, 0x426125225227327252);
  (0x9571, 0x413);
  (0x9572, 0x425232);
  (0x9573, 0x227413215327);
  (0x9576, 0x452152125130227327252132330);
  (0x957f, 0x225252400125130107325152200100327120317262362132162104129315227215115238117331131127330220204304332328320232217230228128352207156142);
  (0x95e8, 0x225425125142252230207325222330227320422127200315327331152215229332238115220232342132129356130338117242352217329204256307300231120);
  (0x95e9, 0x225425452227);
  (0x95ea, 0x152452125262162252362325320227220215315225115327104132130332);
  (0x95eb, 0x127427327);
  (0x95ed, 0x252452152325125153115204120256225100156320315104200317332352);
  (0x95ee, 0x125452152252225220256156227315320325232215115120127331327352);
  (0x95ef, 0x129452152327227125315120252228215);
  (0x95f0, 0x427125227404143327);
  (0x95f1, 0x413225227252327);
  (0x95f2, 0x452125152200252256320225262100315103215115104120325227143352327253300156201362);
  (0x95f3, 0x413227327);
  (0x95f4, 0x225212412243222125104325242207238252152220320215230422107332227120217327330315229132352331312232322256156);
  (0x95f5, 0x127427130227327);
  (0x95f6, 0x459);
  (0x95f7, 0x452200252125100103115315225120152362162352300107104201);
  (0x95f8, 0x425225125252325256130230452);
  (0x95f9, 0x452200152252125162362262320220352325120256227215156100130132);
  (0x95fa, 0x125315225325);
  (0x95fb, 0x225452152127325227215252315120327115331232200125220128320130317332228330132328230);
  (0x95fc, 0x413227);
  (0x95fd, 0x417130117125131132227327217129);
  (0x95fe, 0x427225127125330227327315);
  (0x9600, 0x225425220125232);
  (0x9601, 0x225227426125252325230327220232215330315);
  (0x9602, 0x225454327);
  (0x9603, 0x413);
  (0x9604, 0x252426352);
  (0x9605, 0x152252454156125256227327325225);
  (0x9606, 0x459130125327227);
  (0x9607, 0x125);
  (0x9608, 0x125225);
  (0x9609, 0x452125152);
  (0x960a, 0x459327);
  (0x960b, 0x413315227152320);
  (0x960c, 0x413);
  (0x960d, 0x426);
  (0x960e, 0x127125427327325128225227);
  (0x960f, 0x459125);
  (0x9610, 0x152454227327156);
  (0x9611, 0x426125152227252327315);
  (0x9612, 0x413115);
  (0x9614, 0x200125400252315100227215152325203327320107130);
  (0x9615, 0x435222225422227);
  (0x9616, 0x215125115120);
  (0x9617, 0x230413227327);
  (0x9619, 0x427435227127426327225215152);
  (0x961a, 0x127427);
  (0x961c, 0x130230330320225229131331);
  (0x961f, 0x225125425231222252325238320215217232422227220327142207256);
  (0x9621, 0x125330228);
  (0x9622, 0x459);
  (0x962a, 0x230227130330331);
  (0x962e, 0x127427227327128);
  (0x9631, 0x225413);
  (0x9632, 0x152252156125225452325117331204256120215132207320130115227104131232315327217317220229);
  (0x9633, 0x230225125227330325127327404426130332252427243152232229320343331315328129115204132131220100228215120417231256402217);
  (0x9634, 0x125400127100225230152130115330103227327162142325120229252315220104320342362143352232);
  (0x9635, 0x222125426225322252227135152235142320215315343327325220156129217332331232256338304422317);
  (0x9636, 0x125325426225320343120227132104327304215352328);
  (0x963b, 0x152125252452225325156215227256220315132332);
  (0x963c, 0x413);
  (0x963d, 0x413);
  (0x963f, 0x127130125417129327132330227230131329215152229115331117315225232325104133);
  (0x9640, 0x325125225230330129229232200227);
  (0x9642, 0x459230225125330130);
  (0x9644, 0x112452125152252104156315325107117256317332115331330327215229227);
  (0x9645, 0x225307212325331426220352204332215231320232125356252330454327262315304227256317343);
  (0x9646, 0x225125127107252325242422230331130142227427327426232117131120307315317220152217132332330124417320224100128);
  (0x9647, 0x417130132125227327129330225315);
  (0x9648, 0x127427152128125315227100327252225130220325115230129132332);
  (0x9649, 0x230413330);
  (0x964b, 0x200125402315);
  (0x964c, 0x100125402225142227152327);
  (0x964d, 0x252152452125256325225156215227327243320115220317132332315352);
  (0x9650, 0x325152225452200252125320331156243227315327120132352104332220217);
  (0x9654, 0x413);
  (0x9655, 0x130417117427131225227125327132230331330);
  (0x965b, 0x125);
  (0x965f, 0x413330327227115230);
  (0x9661, 0x400100125107152130230);
  (0x9662, 0x225125231425217220252325232331230227238142317242330327215229130320304256132117);
  (0x9664, 0x434252134152106125120143132325315320156215332115227225256);
  (0x9667, 0x459);
  (0x9668, 0x125454152327);
  (0x9669, 0x225203325252400100200125217107220215315256327331332231120152320227204);
  (0x966a, 0x452152125252227156217225327325220120);
  (0x966c, 0x413);
  (0x9672, 0x225242413);
  (0x9674, 0x413);
  (0x9675, 0x225230426227125330325327130229332217231232329331152252328342);
  (0x9676, 0x125127427152327225330227252256229320130332128230132325315402232156120454431129);
  (0x9677, 0x152252452225125315325215120256);
  (0x9685, 0x426225212315229330215220227);
  (0x9686, 0x227230143127427152100233243327330133130125333200252232325362229101225132156215204332331262220329402328);
  (0x9688, 0x413);
  (0x968b, 0x143427127227444129);
  (0x968d, 0x230330413130);
  (0x968f, 0x134107452252101152125120115100325315104320130162362227230327225156215220);
  (0x9690, 0x152125452162227100104262362315252330120115327320215325156230);
  (0x9694, 0x452252152225156125142104320120132107227325115215315220130131);
  (0x9697, 0x227127427327);
  (0x9698, 0x225125200426325327);
  (0x9699, 0x225426315207125215220);
  (0x969c, 0x252125225256325426304331152204315132332217317);
  (0x96a7, 0x125426325225331);
  (0x96b0, 0x413130227);
  (0x96b3, 0x413);
  (0x96b6, 0x225152325230417320125327227426331252);
  (0x96b9, 0x413227327);
  (0x96bc, 0x413225227327);
  (0x96bd, 0x459227100327315);
  (0x96be, 0x400107203125152100225200252207315320120115325215220262256227204327132331330317217);
  (0x96c0, 0x225426315125325327330320132215130152227131304220230);
  (0x96c1, 0x327227425127130225125129330215132120232115315);
  (0x96c4, 0x225227125100404426104320230427327325162330115252152215120262315130332220200132229129328228);
  (0x96c5, 0x130200402227230327127125132330325129100229225215332262232329120152320203220331131);
  (0x96c6, 0x125152252435225331200325454156256227222230120132327332130215422104129217330320117232115304315343);
  (0x96c7, 0x152125452120252156325);
  (0x96c9, 0x426225125227327);
  (0x96cc, 0x404125120104320315132352325152332227);
  (0x96cd, 0x125227427127327417330130162115132120143325);
  (0x96ce, 0x227413225125);
  (0x96cf, 0x125426252225227327132215);
  (0x96d2, 0x427127230);
  (0x96d5, 0x125225452152227104315115215229120232325156);
  (0x96e0, 0x413);
  (0x96e8, 0x425225125227325252315215127327143220256228115320130120243232332204229);
  (0x96e9, 0x413230);
  (0x96ea, 0x225425125227127327252162132315325115256330220215130228152143320352129229142104232120328128);
  (0x96ef, 0x232227427327228);
  (0x96f3, 0x225215325227332);
  (0x96f6, 0x125156422322100122362124107252262142215315162222233152320227256115352143103327225333120131325);
  (0x96f7, 0x125127225227425327252325152130330329229315129115230215320256332120220331132232);
  (0x96f9, 0x225426125);
  (0x96fe, 0x225425125130252215162227330320327152325115220315120232332129);
  (0x9700, 0x152125452225252325220156215320352227256327);
  (0x9701, 0x454227327115125315);
  (0x9704, 0x227225427315327125215330252115232);
  (0x9706, 0x225227215413327315);
  (0x9707, 0x152225156452227125327325115143252256132320220315228328352331130317);
  (0x9708, 0x227413);
  (0x9709, 0x325200125425452225252152332220100352156);
  (0x970d, 0x127227427417130252107327125129131315330229215329230128325132);
  (0x970e, 0x107343243143);
  (0x970f, 0x162262327227);
  (0x9713, 0x125225);
  (0x9716, 0x227427327225125);
  (0x971c, 0x425343225125227215232327143315332132152325204);
  (0x971e, 0x227225425327125330426228230130315332120320220215427132);
  (0x972a, 0x125459);
  (0x972d, 0x426225227262162327);
  (0x9730, 0x125325);
  (0x9732, 0x252152452125225315227327232100215243320230332132129330256229325220200352130);
  (0x9738, 0x125425227252152325225327130232454332215315120256230320220330229100);
  (0x9739, 0x125315327132);
  (0x973e, 0x225413);
  (0x9752, 0x125130400227152327127225117325104331131262143115132100162317320252228120315200330204215256129232230220229362332217328);
  (0x9753, 0x100413125227327315);
  (0x9756, 0x243227127130327427252230417232330132229325315228);
  (0x9759, 0x200125452152225227162362127400252327100325120130215156262220315132232329356129330228332115320328);
  (0x975b, 0x104225125);
  (0x975e, 0x107414104407252130230207125206225215162315227320115120327106330117129152331156325220132131317229332217127328228);
  (0x9760, 0x452252200152325134125100215115120227315352232);
  (0x9761, 0x454200252315215227103125325100115);
  (0x9762, 0x225125212425152206112201207252325222204224142315115307220200320120215332100331227352422327232256330132329300322217362324262435130);
  (0x9765, 0x413225227);
  (0x9769, 0x256156332325225125454331320152220217252132227117330230352232327315129115130317229);
  (0x9773, 0x127427327227);
  (0x9774, 0x426125225232132315332);
  (0x9776, 0x434125435225252426256325227132);
  (0x977c, 0x225459330);
  (0x9785, 0x227459);
  (0x978b, 0x225425125252325227215232220132332117130);
  (0x978d, 0x426125225130330115327325227328331132131);
  (0x9791, 0x125130);
  (0x9792, 0x413227);
  (0x9794, 0x452);
  (0x9798, 0x225125252330325220);
  (0x97a0, 0x152427454127115125225327227128);
  (0x97a3, 0x452125152325);
  (0x97ab, 0x413);
  (0x97ad, 0x125425152225452252227325115215315156426220232);
  (0x97af, 0x459225);
  (0x97b2, 0x459);
  (0x97b4, 0x459);
  (0x97e6, 0x127427227327230129225329229330130331132115128);
  (0x97e7, 0x125200402227120325315232332327201);
  (0x97e9, 0x127417130227128131132327125230129322330225331122427);
  (0x97ea, 0x215459327227);
  (0x97eb, 0x227413327);
  (0x97ec, 0x125115328152228127327315132);
  (0x97ed, 0x125132327);
  (0x97f3, 0x225125425325252227331131232320330327256215204315120115117132230220332);
  (0x97f5, 0x425225125227325200327332320315);
  (0x97f6, 0x130320227127327427417132131125);
  (0x9875, 0x422222225125435325329320227204327);
  (0x9876, 0x452225125112152222330107252325227115230315262100204327256215104422120242132320220162130331207200);
  (0x9877, 0x222235143107207435115422327220129227);
  (0x9878, 0x200);
  (0x9879, 0x125222238225435422204127252232325130207320332115327230227128);
  (0x987a, 0x227101125107452327400152134232143252100230200215130129115228330132229315243120162362117320104156331231256332328225325);
  (0x987b, 0x207407225125127143252152327315325330120227130320229332215129);
  (0x987c, 0x225227413327);
  (0x987d, 0x100402125152200315327132120227325115);
  (0x987e, 0x252127125452152315207215115225320331104120220327307227128100325256317130);
  (0x987f, 0x107222252435230227229152235331315130200330220325327332125232452215115320422256129156343);
  (0x9880, 0x162);
  (0x9881, 0x152454156227327125256);
  (0x9882, 0x252452152125454227315327228225220115);
  (0x9883, 0x252459);
  (0x9884, 0x152156125407252107256320227104327325304132315117120331143317);
  (0x9885, 0x225426125142215252325);
  (0x9886, 0x125252225452152156227325320120327315215204220104331232330);
  (0x9887, 0x407152107232120203332330229262227315220);
  (0x9888, 0x426225125325142252332);
  (0x9889, 0x427327227232152);
  (0x988a, 0x225426125);
  (0x988c, 0x225325125);
  (0x988d, 0x413130132327229227330);
  (0x988f, 0x426225325);
  (0x9890, 0x130115228152220132120252);
  (0x9891, 0x125100225207107426204152402252256325227327232315320332217132);
  (0x9893, 0x100125454162252227320315120);
  (0x9894, 0x152454);
  (0x9896, 0x427200227315327125100325228);
  (0x9897, 0x222435125422132327325152);
  (0x9898, 0x225125425152252325220315227320452200215332130);
  (0x989a, 0x225125);
  (0x989b, 0x125413130327);
  (0x989c, 0x125127227315225327427426229330320417252215230115220120232);
  (0x989d, 0x225125425204252104325130107127128232215327227129253207115320);
  (0x989e, 0x125);
  (0x989f, 0x100);
  (0x98a0, 0x152452230115156315125362262100400215220162242252227120352);
  (0x98a1, 0x413);
  (0x98a2, 0x227413327);
  (0x98a4, 0x152452252162225125362256215315156325220);
  (0x98a5, 0x225);
  (0x98a6, 0x413320215252);
  (0x98a7, 0x125);
  (0x98ce, 0x125225425252315227325115320152100220327215120256230330332232352200229104238156132228130331131317342217117129328304);
  (0x98d1, 0x413);
  (0x98d2, 0x162262315120107327227200);
  (0x98d3, 0x125);
  (0x98d5, 0x433262362233133);
  (0x98d8, 0x152452362252107315262100162125156327115200227120320256127352);
  (0x98d9, 0x152225320228125);
  (0x98da, 0x252228);
  (0x98de, 0x125452152227252156327132315325162107115215127217320225130331232220228120256131330104129100204229);
  (0x98df, 0x125225452252152320325215120104315327115331220204332256132330232217156);
  (0x98e7, 0x413);
  (0x98e8, 0x454210125152);
  (0x990d, 0x413);
  (0x9910, 0x125225426252222325256220315215238422217115);
  (0x992e, 0x459225315227327);
  (0x9954, 0x413227);
  (0x9955, 0x125115);
  (0x9964, 0x225);
  (0x9965, 0x125426252115315120200352152402215320220);
  (0x9966, 0x225);
  (0x9967, 0x452125);
  (0x9968, 0x459225);
  (0x9969, 0x413);
  (0x996a, 0x252225413331);
  (0x996b, 0x413);
  (0x996c, 0x413252);
  (0x996d, 0x425252225125143220325330215315320227204115256132120352229);
  (0x996e, 0x125452152225252325120320115315227156215117232327130);
  (0x996f, 0x152225);
  (0x9970, 0x252225452325125152227315204256320331132232332);
  (0x9971, 0x152400452100332156115225125315320120215252220227304325356);
  (0x9972, 0x125152454252325132104);
  (0x9973, 0x225);
  (0x9974, 0x125215225315);
  (0x9975, 0x125225426227325);
  (0x9976, 0x452152127200252230120227215330320327130325427115);
  (0x9977, 0x225125252);
  (0x997a, 0x125426225);
  (0x997c, 0x225425125252325227315332132232);
  (0x997d, 0x125225);
  (0x997e, 0x125);
  (0x997f, 0x452152225125252215115325320120);
  (0x9980, 0x413227327);
  (0x9981, 0x200454252215);
  (0x9984, 0x125);
  (0x9985, 0x426125225252232204352);
  (0x9986, 0x225426125230231325130238227256252232352331215152320217);
  (0x9987, 0x459);
  (0x9988, 0x252152225156125325);
  (0x9989, 0x125);
  (0x998a, 0x400125);
  (0x998b, 0x400252200125115);
  (0x998d, 0x225125252232);
  (0x998e, 0x125);
  (0x998f, 0x252125325225452);
  (0x9990, 0x413225);
  (0x9991, 0x459225);
  (0x9992, 0x125130327);
  (0x9993, 0x426125225);
  (0x9994, 0x413225315);
  (0x9995, 0x413227);
  (0x9996, 0x125122107422143252152225104222115215315156212322327132130230325131330320243117227120220331207217332328);
  (0x9997, 0x225413227327);
  (0x9998, 0x413);
  (0x9999, 0x130125400225227327127252131325330100132162332200315129215232204229362320120104262331115230220128228);
  (0x99a5, 0x227162402327229328);
  (0x99a8, 0x227200426225125327325203220);
  (0x9a6c, 0x425127225125230130252330327107325227232315129329207215135229332132128115220100320117331322120304352328122131256143231307104243);
  (0x9a6d, 0x252315325125);
  (0x9a6e, 0x452152125332);
  (0x9a6f, 0x125152452227215100200156);
  (0x9a70, 0x454252152115227315215200232327331256132120332);
  (0x9a71, 0x152454125156225252325315227215320332327);
  (0x9a73, 0x252452152125262220256325156227100225362315200);
  (0x9a74, 0x425225125227325315327215152220115130120252);
  (0x9a75, 0x413);
  (0x9a76, 0x252325152454332452227);
  (0x9a77, 0x115125315);
  (0x9a78, 0x125);
  (0x9a79, 0x225426227327125330315325);
  (0x9a7a, 0x413);
  (0x9a7b, 0x452125152252156130331227115131);
  (0x9a7c, 0x225452125325332228);
  (0x9a7d, 0x100125);
  (0x9a7e, 0x152452125252222225227132117315327115435422120256);
  (0x9a7f, 0x125230152228130330);
  (0x9a80, 0x459);
  (0x9a81, 0x100125115327);
  (0x9a82, 0x452252152215125315362162256120325220225);
  (0x9a84, 0x100402125115227225315120215327);
  (0x9a85, 0x230330427227125);
  (0x9a86, 0x125127427130132227325327);
  (0x9a87, 0x200115315162100125225330);
  (0x9a88, 0x125);
  (0x9a8a, 0x413130227327315);
  (0x9a8b, 0x252454215327227320);
  (0x9a8c, 0x256225252325152452156200125331227315220332204120327132);
  (0x9a8f, 0x227426125327332402129);
  (0x9a90, 0x413125227327);
  (0x9a91, 0x452125152225227325327130252115104331315256215352);
  (0x9a92, 0x125);
  (0x9a93, 0x413);
  (0x9a96, 0x452);
  (0x9a97, 0x452252125152256325215220);
  (0x9a98, 0x225413227);
  (0x9a9a, 0x152225400252215125156230327227115320220232);
  (0x9a9b, 0x413315220225215);
  (0x9a9c, 0x227315200327413);
  (0x9a9d, 0x413227225);
  (0x9a9e, 0x227413327228);
  (0x9a9f, 0x452);
  (0x9aa0, 0x125459325227);
  (0x9aa1, 0x125426225);
  (0x9aa2, 0x227413327);
  (0x9aa3, 0x413);
  (0x9aa4, 0x225107407152220201125315156227320115);
  (0x9aa5, 0x227327427215426315225);
  (0x9aa7, 0x227454217327315228);
  (0x9aa8, 0x125426225325152215315252227262327320200132115220307120332162330352331133);
  (0x9ab0, 0x125);
  (0x9ab1, 0x413);
  (0x9ab6, 0x325125);
  (0x9ab7, 0x125);
  (0x9ab8, 0x225125215325);
  (0x9aba, 0x459);
  (0x9abc, 0x225325459);
  (0x9ac0, 0x413115);
  (0x9ac1, 0x413);
  (0x9ac2, 0x125);
  (0x9ac5, 0x225459);
  (0x9acb, 0x125);
  (0x9acc, 0x125);
  (0x9ad1, 0x125);
  (0x9ad3, 0x225413325125215252);
  (0x9ad8, 0x400125252100200107152127104327225325330130117227120315142320132328115332331162229362129204128304207131215217220232317262156329352228230103256);
  (0x9ae1, 0x413227);
  (0x9ae6, 0x413200227252327);
  (0x9aeb, 0x413225);
  (0x9aed, 0x413125);
  (0x9aef, 0x426225327125227);
  (0x9af9, 0x413);
  (0x9afb, 0x413225330);
  (0x9b03, 0x426225125330);
  (0x9b08, 0x413);
  (0x9b0f, 0x413);
  (0x9b13, 0x426125225315227320215);
  (0x9b1f, 0x225413227327315);
  (0x9b23, 0x125426);
  (0x9b2f, 0x413327);
  (0x9b32, 0x426227);
  (0x9b3b, 0x454315232);
  (0x9b3c, 0x425125225252315115400227320215325152127220100120352143);
  (0x9b41, 0x225100130125315252228327328);
  (0x9b42, 0x225425315125252115325200204120227215327220332);
  (0x9b43, 0x225459);
  (0x9b44, 0x225215125426200315220115227327);
  (0x9b45, 0x125225315220120);
  (0x9b47, 0x225252);
  (0x9b48, 0x459225327);
  (0x9b49, 0x459225215);
  (0x9b4d, 0x459125315);
  (0x9b4f, 0x127427243227117327130129315125444128220143);
  (0x9b51, 0x413115125227);
  (0x9b54, 0x125426225315227327252104352220115120132);
  (0x9c7c, 0x425125225252127227330115325232315215220327130320120152107230132332);
  (0x9c7f, 0x125352132);
  (0x9c81, 0x127327330425227325230130232331317200128132129229117100329332417225228131125217115427252);
  (0x9c82, 0x413227225);
  (0x9c85, 0x125130);
  (0x9c86, 0x413227225);
  (0x9c87, 0x125129);
  (0x9c88, 0x413125227225);
  (0x9c8b, 0x413227);
  (0x9c8d, 0x127427125327129227115);
  (0x9c8e, 0x413);
  (0x9c90, 0x413);
  (0x9c91, 0x125225);
  (0x9c92, 0x413);
  (0x9c94, 0x413);
  (0x9c95, 0x413);
  (0x9c9a, 0x413);
  (0x9c9b, 0x413325227225125);
  (0x9c9c, 0x230125100200400332330162325127152225331215115315227256252327204104120132317220129130);
  (0x9c9e, 0x413225);
  (0x9c9f, 0x225413125);
  (0x9ca0, 0x225315100);
  (0x9ca1, 0x225459);
  (0x9ca2, 0x125225);
  (0x9ca3, 0x125);
  (0x9ca4, 0x426125132227225115327330130);
  (0x9ca5, 0x125);
  (0x9ca6, 0x459);
  (0x9ca7, 0x413);
  (0x9ca8, 0x125225232132325);
  (0x9ca9, 0x413);
  (0x9cab, 0x125215);
  (0x9cad, 0x413);
  (0x9cae, 0x125325);
  (0x9cb0, 0x413);
  (0x9cb1, 0x125);
  (0x9cb2, 0x125);
  (0x9cb3, 0x125225);
  (0x9cb4, 0x413);
  (0x9cb5, 0x225413);
  (0x9cb6, 0x125);
  (0x9cb7, 0x413125225);
  (0x9cb8, 0x426227225125327152325315);
  (0x9cba, 0x413);
  (0x9cbb, 0x413);
  (0x9cbc, 0x413);
  (0x9cbd, 0x413);
  (0x9cc3, 0x425152325);
  (0x9cc4, 0x426225125);
  (0x9cc5, 0x459225227);
  (0x9cc6, 0x459);
  (0x9cc7, 0x125426);
  (0x9cca, 0x125);
  (0x9ccc, 0x413227125225315130);
  (0x9ccd, 0x225425325);
  (0x9cce, 0x413225);
  (0x9ccf, 0x125115);
  (0x9cd0, 0x413227);
  (0x9cd3, 0x413);
  (0x9cd4, 0x425225125);
  (0x9cd5, 0x125225);
  (0x9cd6, 0x425225125215325);
  (0x9cd7, 0x125426225252327);
  (0x9cd8, 0x413);
  (0x9cd9, 0x125);
  (0x9cdc, 0x125);
  (0x9cdd, 0x225125);
  (0x9cde, 0x425125225315227327325115152262162);
  (0x9cdf, 0x225125325);
  (0x9ce2, 0x413225);
  (0x9e1f, 0x425125225152227325315215115327132220320252232130127129);
  (0x9e20, 0x127225229115315);
  (0x9e21, 0x425125225230115325315130152252132215120330227332327320232352256129243331143);
  (0x9e22, 0x125426225227);
  (0x9e23, 0x252452227325152327454125215256225315115220156229130320330120129232238328128230228);
  (0x9e25, 0x225426227327125);
  (0x9e26, 0x125132225115332252320330130);
  (0x9e28, 0x125225);
  (0x9e29, 0x426125315);
  (0x9e2a, 0x225459327325);
  (0x9e2b, 0x413);
  (0x9e2c, 0x125);
  (0x9e2d, 0x426125225130330325232132252304315);
  (0x9e2f, 0x225459227325215327);
  (0x9e31, 0x413125);
  (0x9e32, 0x413125);
  (0x9e33, 0x125325327315);
  (0x9e35, 0x125120225);
  (0x9e36, 0x225459);
  (0x9e37, 0x200125);
  (0x9e38, 0x125);
  (0x9e39, 0x459225);
  (0x9e3a, 0x459);
  (0x9e3d, 0x125225426227332232327132);
  (0x9e3e, 0x427227125327315252115);
  (0x9e3f, 0x327227427125426402225315228132332127115215130229325320129232);
  (0x9e41, 0x125);
  (0x9e42, 0x225427459327227);
  (0x9e43, 0x227459225325320332327);
  (0x9e44, 0x426227327225315320);
  (0x9e45, 0x225425125232130325332330104132115327315320227120331);
  (0x9e46, 0x459225);
  (0x9e47, 0x225459);
  (0x9e48, 0x125);
  (0x9e49, 0x225325459227315);
  (0x9e4a, 0x426225227130315125115330);
  (0x9e4b, 0x225459);
  (0x9e4c, 0x125);
  (0x9e4e, 0x413);
  (0x9e4f, 0x227427327225232132328228115330130);
  (0x9e51, 0x225459115227);
  (0x9e55, 0x459225);
  (0x9e57, 0x426227);
  (0x9e58, 0x230459315);
  (0x9e5a, 0x225459);
  (0x9e5b, 0x413);
  (0x9e5c, 0x215426320225);
  (0x9e5e, 0x426125225104227);
  (0x9e63, 0x413);
  (0x9e64, 0x425227225327130125115315232215129325132330320131228120331328);
  (0x9e66, 0x125115327);
  (0x9e67, 0x125);
  (0x9e68, 0x413225);
  (0x9e69, 0x459125225227);
  (0x9e6a, 0x125);
  (0x9e6b, 0x130425225327227);
  (0x9e6c, 0x115125);
  (0x9e6d, 0x426227225125130232327);
  (0x9e70, 0x425227225125232327132325332130104129115330120229);
  (0x9e71, 0x413);
  (0x9e73, 0x225413130227332327);
  (0x9e7e, 0x413);
  (0x9e7f, 0x127425225125227327330130232332230427315229252115220129215);
  (0x9e82, 0x125225);
  (0x9e87, 0x413227);
  (0x9e88, 0x413327);
  (0x9e8b, 0x125);
  (0x9e92, 0x125327130);
  (0x9e93, 0x212225426227327331242230);
  (0x9e9d, 0x125);
  (0x9e9f, 0x227225426327315330325132129232115);
  (0x9ea6, 0x225127125426230227130427132327129330229325332104152252331315232352143);
  (0x9eb4, 0x427);
  (0x9eb8, 0x125225);
  (0x9ebb, 0x125225425127103152100325327362262227252115215320156162452130131200220104217331315330232352129230132332);
  (0x9ebd, 0x459);
  (0x9ebe, 0x125);
  (0x9ec4, 0x125127130400143225325204262227117132128131327252315120330217320232162230115152229215332362331200104129352317);
  (0x9ec9, 0x413);
  (0x9ecd, 0x426225125);
  (0x9ece, 0x230127143330417227130327125320331132131129228325332128);
  (0x9ecf, 0x125400100152);
  (0x9ed1, 0x125400130127262162252100230227104325330120229315129132225327115204220320131215200362232352331217332);
  (0x9ed4, 0x417130217327131232117227125129115330332);
  (0x9ed8, 0x200162362252207107329152452227327315100120115129320325330232127225229256156132131125101130);
  (0x9edb, 0x127327426227225125129328);
  (0x9edc, 0x252315152);
  (0x9edd, 0x162262362125);
  (0x9edf, 0x130413);
  (0x9ee0, 0x200125413);
  (0x9ee2, 0x262362402);
  (0x9ee5, 0x413);
  (0x9ee7, 0x162);
  (0x9ee9, 0x315152);
  (0x9eef, 0x162100115120103);
  (0x9ef9, 0x225413);
  (0x9efb, 0x413315);
  (0x9efc, 0x413115);
  (0x9efe, 0x459227152);
  (0x9f0b, 0x130125);
  (0x9f0d, 0x413);
  (0x9f0e, 0x227426225162315327152252320232215115220130107125325120328332330230132);
  (0x9f10, 0x227413327215);
  (0x9f13, 0x152452125225252215315325362162220227330320327120262130425132115232156129100);
  (0x9f17, 0x413227);
  (0x9f19, 0x459);
  (0x9f20, 0x225425125325315252227215426143115152220243120232);
  (0x9f22, 0x125);
  (0x9f2c, 0x225125);
  (0x9f2f, 0x125);
  (0x9f39, 0x125225);
  (0x9f3b, 0x125426252227325152200315225230352320215142120220115330132332327204);
  (0x9f3e, 0x125252152);
  (0x9f44, 0x413);
  (0x9f50, 0x400127207407100200152227243230125330132107327315252130328362262115215162229120320128104101331129452329220131352222);
  (0x9f51, 0x413125);
  (0x9f7f, 0x225425125215325252227315220204132320232120207332);
  (0x9f80, 0x413227);
  (0x9f83, 0x125);
  (0x9f84, 0x225227426204325435352252327304356125331330228);
  (0x9f85, 0x125);
  (0x9f86, 0x413227);
  (0x9f87, 0x452115);
  (0x9f88, 0x225413325);
  (0x9f89, 0x459225);
  (0x9f8a, 0x459200215);
  (0x9f8b, 0x125252);
  (0x9f8c, 0x100315);
  (0x9f99, 0x425125227330225127130230232327325132315332229115129215128320228331104131252217117220120243143);
  (0x9f9a, 0x127427327227128130);
  (0x9f9b, 0x426225);
  (0x9f9f, 0x425225125130132327227152325120232330129426315);
  (0x9fa0, 0x413)
].

(** char_state_tab.go: poss *)
Local Open Scope lit_scope.
Definition poss : list bytes := map str ["a"; "ad"; "ag"; "an"; "b"; "bg"; "c"; "d"; "df"; "dg"; "e"; "en"; "f"; "g"; "h"; "i"; "in"; "j"; "jn"; "k"; "l"; "ln"; "m"; "mg"; "mq"; "n"; "ng"; "nr"; "nrfg"; "nrt"; "ns"; "nt"; "nz"; "o"; "p"; "q"; "qe"; "qg"; "r"; "rg"; "rr"; "rz"; "s"; "t"; "tg"; "u"; "ud"; "ug"; "uj"; "ul"; "uv"; "uz"; "v"; "vd"; "vg"; "vi"; "vn"; "vq"; "w"; "x"; "y"; "yg"; "z"; "zg"].
Local Open Scope Z_scope.

(** prob_trans.go:21-278 probTrans: for every state its successors (y, m, e) with probability m * 2^e. *)
Definition trans_tab : list (Z * list (Z * Z * Z)) := [
  (100, [(200, -0x297dc01e7ca07, -57); (300, -0x1526dfc84b5595, -50)]);
  (101, [(201, -0x1881da05ae84db, -63); (301, -0xe65b0a5b70ce5, -49)]);
  (102, []);
  (103, [(203, 0, 0)]);
  (104, [(204, -0x4528fd745e82b, -54); (304, -0x15d43a61a5b153, -51)]);
  (105, []);
  (106, [(206, -0x16bf2f8e6080b, -53); (306, -0xc8b4ba4e4231, -46)]);
  (107, [(207, -0xbf95252489227, -56); (307, -0x18af99c6c6eaaf, -51)]);
  (108, [(208, 0, 0)]);
  (109, []);
  (110, [(210, -0x783bb0cc9efe7, -55); (310, -0x2dd4912f4d8ab, -48)]);
  (111, []);
  (112, [(212, -0x13998557e8af, -50); (312, -0x1fb95ed4a71b53, -51)]);
  (113, []);
  (114, [(214, 0, 0)]);
  (115, [(215, -0x1e0a3dad2a4ee9, -50); (315, -0x47cac9c94b585, -61)]);
  (116, [(316, 0, 0)]);
  (117, [(217, -0x823653e3b4a5d, -53); (317, -0x17e5e44baa5315, -52)]);
  (118, [(318, 0, 0)]);
  (119, []);
  (120, [(220, -0x75c7089d34a5f, -49); (320, -0x1a252a545ae055, -58)]);
  (121, [(321, 0, 0)]);
  (122, [(222, -0x17d411385a75db, -55); (322, -0xe2eabd9e7c777, -51)]);
  (123, []);
  (124, [(224, -0x1dcfda9eb55f4d, -53); (324, -0x100601d8a303d9, -53)]);
  (125, [(225, -0x8e069b403cceb, -54); (325, -0x416887fe45c4d, -49)]);
  (126, []);
  (127, [(227, -0x1d66ce2851feed, -53); (327, -0x104b02d1c06569, -53)]);
  (128, [(228, -0xb09c639b452d1, -52); (328, -0x16490fe9ee5ea1, -53)]);
  (129, [(229, -0x19753e2bee70bd, -55); (329, -0x36cf3ef1ac61f, -49)]);
  (130, [(230, -0x1392b9569bd6ad, -54); (330, -0xaab82f2a1b1b1, -51)]);
  (131, [(231, -0x5db37eb138f11, -48); (331, -0xbbd106d4203b9, -60)]);
  (132, [(232, -0x105f75d0c72a93, -53); (332, -0x3a9032bf216a7, -50)]);
  (133, [(233, -0x9fe7e78a7b731, -54); (333, -0x1ef17529880c29, -52)]);
  (134, [(234, -0x10f9c2b9769fb1, -63); (334, -0x1e4343bcc82477, -50)]);
  (135, [(235, -0x1ddbf8e343c50d, -55); (335, -0xc8f2b1a371fef, -51)]);
  (136, [(236, 0, 0)]);
  (137, []);
  (138, [(238, -0x1148022aeed9eb, -58); (338, -0x20b8e19a35c63, -47)]);
  (139, []);
  (140, [(240, -0x47aa346fde1c7, -49); (340, -0x73525cf98bfdf, -54)]);
  (141, [(241, 0, 0)]);
  (142, [(242, -0x1fac9cd2074b09, -59); (342, -0x10b514dbda35db, -50)]);
  (143, [(243, -0x1fbc6e1c5bb6cb, -57); (343, -0x167e5e554d2ef7, -51)]);
  (144, []);
  (145, [(245, -0x5b097b6ae37c9, -66); (345, -0x1579d8d363a33, -45)]);
  (146, []);
  (147, []);
  (148, []);
  (149, []);
  (150, []);
  (151, []);
  (152, [(252, -0x196a078ec81ba3, -59); (352, -0x8ca80497f80fb, -49)]);
  (153, [(253, 0, 0)]);
  (154, []);
  (155, [(355, 0, 0)]);
  (156, [(256, -0x16950eaec18589, -59); (356, -0x120d461a3f39ad, -50)]);
  (157, [(257, 0, 0)]);
  (158, []);
  (159, []);
  (160, [(260, -0x9782567932187, -59); (360, -0x1583f738bea63f, -50)]);
  (161, []);
  (162, [(262, -0x11bd2fb0d3a02b, -53); (362, -0x1b57008eaa3f79, -53)]);
  (163, []);
  (200, [(100, -0x1b70f2fb235aeb, -51); (101, -0x1a1f1686d2cf85, -50); (103, -0xdcfd0d9782c1d, -49); (104, -0x586a6dbc7d4a9, -48); (106, -0x1047091755b5c9, -50); (107, -0x41e04d65c589b, -48); (108, -0x13ee37950df667, -49); (110, -0x16a5938b26b295, -49); (112, -0xb6f67dae9843b, -49); (115, -0x18276bbe5e2517, -50); (117, -0x61ad6b8c922e9, -48); (120, -0x585e03b21ffb5, -48); (122, -0x11bf1ca3a097d1, -50); (124, -0x10b91e77992fd, -45); (125, -0x5eae96d2174d5, -50); (127, -0x13539dcc1605a9, -50); (128, -0x439d1b01cf0f3, -47); (129, -0x1cc7223300aa7f, -50); (130, -0x15496c19343779, -50); (131, -0x1e924f286ecf9b, -50); (132, -0xd09eae5add8f, -45); (133, -0x1390de54c6640d, -49); (134, -0x61889e5155a6f, -48); (135, -0x1fa14478ef1ed5, -50); (138, -0x11eb46279949a5, -50); (140, -0x36151c53a3e6b, -46); (141, -0x13ee37950df667, -49); (142, -0x318187779a7ff, -47); (143, -0x50a1a579b5ae7, -48); (145, -0x6550b43bb922d, -48); (152, -0x11a7b9feef5a59, -51); (153, -0x112c1acbc66dcf, -49); (155, -0x17263fd40ba80d, -49); (156, -0x1ad6a2b389839, -47); (157, -0x19a7a9f9e24fb9, -49); (160, -0x10ea81b50a77, -41); (162, -0xca950af41ac65, -49); (400, -0x135d7ec0463fbb, -50); (401, -0x15a0089b7ea15, -45); (402, -0xfbc7b19fd7485, -49); (403, -0x15a0089b7ea15, -45); (404, -0x1d768934de9d91, -50); (406, -0x1c5b4a34059c11, -51); (407, -0x1b07046f53aa0b, -51); (409, -0x134c801abdc47b, -49); (410, -0x12105f9dfaaddd, -49); (412, -0x293ec12d1d85, -43); (413, -0x1f0259966cd7f, -46); (414, -0x13790cdc12de47, -49); (417, -0x1a3eafc35e1d7d, -50); (419, -0xcfdef5d9a98fd, -49); (422, -0x97ab6a65428fd, -49); (423, -0x17263fd40ba80d, -49); (425, -0x10c3a82e976107, -50); (426, -0x13bd440bc82b8b, -50); (427, -0x196f9c16a0265b, -50); (433, -0xaa157ad9b877b, -48); (434, -0x1d7ead19b3f619, -51); (435, -0x9f81d9cc66c8b, -49); (438, -0x1f94ed1e274bad, -51); (439, -0x19a7a9f9e24fb9, -49); (444, -0x1f1c467fc20a0b, -50); (445, -0x4ec82e6d079b, -44); (446, -0xba1ec22e874cd, -49); (447, -0x3d08224afc209, -47); (448, -0x60dcfd8f96acb, -50); (449, -0x8da3d229d1e4f, -49); (450, -0x37a31d55d1d19, -48); (451, -0xe8a91688d527f, -49); (452, -0xc9e869df413ab, -50); (454, -0x1986193525d49, -46); (456, -0x13fd0f0963afdb, -49); (459, -0x1275d71040db65, -49); (460, -0x16071bbb72d50f, -50)]);
  (201, [(100, -0x756c77aedc9cb, -49); (101, -0x2c9e8f326d653, -47); (103, -0xed15608dd5283, -49); (104, -0x671425f26cd9d, -48); (106, -0x155e3465e59e1d, -50); (107, -0x91dc63b686a85, -49); (108, -0x49612c79702dd, -47); (112, -0x1a7b4ab3f66cad, -50); (115, -0x179193597b4b71, -50); (117, -0xdb91ef1d1576d, -49); (120, -0x17fdd24ccdf969, -50); (122, -0x1662330b1e4395, -50); (124, -0x11a5f5dd125335, -49); (125, -0x2ac02425622cd, -48); (127, -0x5fdad7649d9ab, -48); (128, -0x4a135f7ec495, -43); (129, -0xf7d9c1fa5ec27, -49); (130, -0x18fb9b1038eb5b, -50); (131, -0x11e60b3f3da10b, -49); (132, -0x1dee8f078dbcb1, -50); (133, -0x993f21ee1041b, -48); (134, -0x15bf3f37684f27, -50); (135, -0x4a135f7ec495, -43); (138, -0x159f2e83b22add, -50); (142, -0x1c3fba820bc8fb, -50); (143, -0x189babf9d007ff, -50); (145, -0x198457844a2a7f, -50); (152, -0x165bc40cdcae19, -53); (153, -0x12095e47db0429, -49); (155, -0x57b6b276853dd, -47); (156, -0x188478939a9a11, -51); (160, -0x26d884ef954f9, -46); (162, -0x7d9c6f7f40055, -48); (400, -0x16381c7c5abe37, -50); (401, -0x13bb2f4e4baf13, -49); (402, -0x49612c79702dd, -47); (404, -0x11c5000dd26497, -49); (406, -0x11f3b783e5309d, -50); (407, -0x7125e2097a1, -41); (409, -0x148ac86db1abd5, -49); (410, -0x57b6b276853dd, -47); (412, -0x15ef2c9f1edde1, -50); (413, -0x22da06981f8c9, -46); (414, -0x13bb2f4e4baf13, -49); (417, -0x1ee6f11b7965a7, -50); (419, -0xe8cf7ced4b2f1, -49); (422, -0x1625f25c01261b, -50); (425, -0x174d489b19b4d3, -50); (426, -0x6d43c084bef1, -44); (427, -0xf7d9c1fa5ec27, -49); (433, -0x49612c79702dd, -47); (434, -0xce7953ffd5e1f, -50); (435, -0x180fd184cee5cb, -50); (438, -0x151be2c3801223, -50); (444, -0x49612c79702dd, -47); (445, -0x736f6cf0a50c7, -48); (446, -0x1d85d33e2d8ee7, -50); (447, -0xfefdbfec4569, -45); (448, -0xb222060b93e7b, -50); (449, -0xa83a24255c925, -49); (450, -0xeb2c99229c797, -50); (451, -0x11c5000dd26497, -49); (452, -0x11f5b3d49e21b, -47); (454, -0x1933fca7523955, -50); (459, -0x26d884ef954f9, -46); (460, -0x1d33dc86fe97fd, -50)]);
  (202, []);
  (203, [(100, -0xe6bc32edaf9fd, -50); (101, -0x17bb447b517255, -50); (103, -0xba3e1e8ebbe13, -49); (104, -0x15e582d8891def, -50); (106, -0x35aafdb07a6db, -48); (107, -0x67b54314319c1, -49); (108, -0x909f9337390b, -44); (112, -0x13de4c113ccae5, -50); (115, -0x5d8dc4e55d4e7, -48); (117, -0x17ea2d2d3dd80f, -50); (120, -0x15b65056b0dee1, -50); (122, -0x13296f4467019f, -50); (124, -0x1fc2ea2f2301fd, -50); (125, -0x1a12ece043bc11, -52); (127, -0x12ba9fb9aaf497, -50); (128, -0x83110b03b3b3b, -48); (129, -0xe9bd4c5be21e3, -49); (130, -0x15667b303509b9, -50); (131, -0xf252eab705ead, -49); (132, -0xd48397907538d, -49); (133, -0x14466fb63cc1c1, -49); (134, -0x5723bae5e0b9f, -48); (135, -0x10b10e36f77dc1, -49); (138, -0x8357f08db9bd7, -49); (142, -0x1969dcd0fb5961, -50); (143, -0x9b2d7f9c20f8d, -49); (145, -0x1af20beff39835, -50); (152, -0x113083bfa69067, -51); (153, -0x909f9337390b, -44); (155, -0x971c5c3268f11, -48); (156, -0x1815df84dff5e3, -51); (160, -0x83110b03b3b3b, -48); (162, -0x189827309879fd, -50); (400, -0x146067ca358a89, -50); (401, -0x14466fb63cc1c1, -49); (402, -0x40770c99b75b9, -47); (404, -0xe9bd4c5be21e3, -49); (406, -0x15d3d585011e3, -47); (407, -0x177ab2039924a5, -51); (409, -0x1180a7565d7a83, -49); (410, -0x3eae0d1d3db1f, -47); (412, -0x9217e56abcd01, -49); (413, -0x7a7150383ed11, -48); (414, -0x971c5c3268f11, -48); (417, -0x686d2bd5707e9, -48); (419, -0x1dfe7a610da5af, -50); (422, -0x12cc478fb5ff, -42); (425, -0x947e2e0d4447d, -49); (426, -0x146708854e0a09, -50); (427, -0xdeb45d7183683, -49); (434, -0xe18c46e623909, -50); (435, -0x173a33a9b89b71, -50); (438, -0x1c1ba8eff341bb, -51); (444, -0xd48397907538d, -49); (445, -0x8f4c80f12cb63, -49); (446, -0x30155fd0a34d3, -47); (447, -0x1d75bdecfc668b, -50); (448, -0x850d253912f6d, -50); (449, -0x1173bb6224cbb7, -50); (450, -0x88ace02bda47b, -49); (451, -0xd48397907538d, -49); (452, -0x18935e8c5c5d8b, -51); (454, -0xc0dab40b38bbb, -49); (459, -0x971c5c3268f11, -48); (460, -0x539941af79b83, -48)]);
  (204, [(100, -0x4b52a13dacf1, -44); (101, -0x1f335a8e7bb613, -50); (103, -0x19221696e7fe3, -46); (104, -0x123af06d5c26af, -50); (106, -0xc6fda44d15c5d, -49); (107, -0x164f616954089f, -50); (112, -0xb420b6bb18307, -49); (114, -0x18b54307bcb97b, -49); (115, -0x757e8853e0917, -48); (117, -0x57ba1ad102dff, -48); (120, -0xa730fbdec83eb, -49); (121, -0x18b54307bcb97b, -49); (122, -0x96c0b41f8d6fb, -49); (124, -0x880fe3dec3ea7, -48); (125, -0x17f69588c26cdf, -53); (127, -0x15db950958b229, -50); (128, -0x125a1928982e3d, -49); (129, -0xf4e9daaef9663, -49); (130, -0x9c97da5156f5, -45); (131, -0x1afa6cafa8d575, -50); (132, -0x16ca09247a66bb, -50); (133, -0x5d497b5f34577, -47); (134, -0xc4d904b7f85fd, -49); (135, -0x1f3e3097d1b35d, -50); (138, -0x159320aa54564f, -50); (141, -0x15ef7aa7dd723d, -49); (142, -0x186892f809b7ad, -50); (143, -0x18767ab09ff1c9, -50); (145, -0x1a74f9c98af59d, -50); (152, -0x49ac05a56deb5, -49); (153, -0x4ef3f5621f477, -47); (156, -0x170fc93156b279, -51); (157, -0x5d497b5f34577, -47); (160, -0x14d0f4b1f66e3, -45); (162, -0x1f091ef66355cb, -50); (400, -0x9b6f9cd45e6d3, -49); (402, -0x20a851352f4f5, -46); (404, -0x1699341053d57f, -50); (405, -0x18b54307bcb97b, -49); (406, -0x12b8aac26dd0d7, -50); (407, -0x4b52a13dacf1, -44); (409, -0xa464b3bf6e74f, -48); (412, -0x934f274ba6f67, -49); (413, -0x1efed453c41de1, -50); (414, -0x835fd09a596b7, -48); (417, -0xc6ebedeaa932f, -49); (419, -0x19b29fd81324e1, -50); (422, -0x1339578ddcec5b, -50); (425, -0x1d173c087b13d, -47); (426, -0x800fed9aed429, -49); (427, -0x74762ec886add, -48); (433, -0x15ef7aa7dd723d, -49); (434, -0x7cec2a2bc3b43, -49); (435, -0x11b72991ced573, -50); (438, -0x16c0dd1164074d, -50); (444, -0x10a84822278353, -49); (445, -0x16868cfed95f29, -50); (446, -0x8d3e1f3a73aff, -48); (447, -0x8b0c256cd5b03, -48); (448, -0x141988dbe8727b, -51); (449, -0xeed6730754165, -49); (450, -0x1841dadca0aa25, -50); (451, -0x805f6932e22b9, -48); (452, -0xae70cb63d0593, -50); (454, -0xbdf0f19f1723b, -49); (456, -0x976b21c90ea8d, -48); (459, -0x11b70cca874b47, -49); (460, -0x10d82ac7e8793b, -49); (461, -0x18b54307bcb97b, -49)]);
  (205, []);
  (206, [(100, -0x4510685f74641, -48); (101, -0xb50bfc90eef3d, -49); (103, -0x1f3e63de4f42b3, -50); (104, -0x9f2b5fefde115, -49); (106, -0x1062c19386849f, -50); (107, -0x1be10f97e57a97, -51); (108, -0x1123215082816d, -49); (110, -0x618b2bb78f85f, -47); (112, -0x14bb7cfcb2b319, -50); (114, -0x19c5af1dd3851b, -49); (115, -0xac1773e6be979, -49); (116, -0x19c5af1dd3851b, -49); (117, -0xa70195983d0cd, -49); (120, -0x51399753f9cf1, -48); (122, -0x3bd29797a3117, -48); (124, -0x33c144bb2974f, -47); (125, -0x1d88c150a8b9fd, -52); (127, -0x1ee9838bc99a3b, -51); (128, -0x74d778b4e34b3, -48); (129, -0x1931b7859d4ae9, -50); (130, -0x3e465bee7b171, -48); (131, -0xbf466cf6108e9, -49); (132, -0x16a3bae5f544a9, -50); (133, -0x9aacf4fec10e7, -48); (134, -0x8f17652eb7671, -49); (135, -0xcf1fe395cf9cf, -49); (138, -0x5b5f828d01a75, -49); (140, -0x15e160c80d39d, -45); (141, -0x865c048fe1fd, -44); (142, -0xa51a32ad7710d, -49); (143, -0x1d62074c5b74b5, -51); (145, -0x1102161f1744f9, -49); (152, -0xf779b8e2b1dad, -51); (153, -0x87ddcf03e81cb, -48); (156, -0x85125023fa935, -49); (157, -0x19c5af1dd3851b, -49); (160, -0x19c5af1dd3851b, -49); (162, -0xe02d9e59c3d5, -45); (400, -0x1237d2e3863fe5, -50); (401, -0xace8147024d1f, -48); (402, -0x3f7fad0a66a23, -47); (403, -0xbc998e73ef25d, -48); (404, -0x1afc205642ee2f, -50); (406, -0x165f516807f1bd, -50); (407, -0x14b8627fe74a75, -51); (409, -0x506c50b55394f, -47); (410, -0x13e2219c52585, -45); (412, -0x1631ada1aeecd1, -50); (413, -0x7c31b74745749, -48); (414, -0x1080b3eb26fb25, -49); (417, -0x17185844712229, -50); (419, -0x11b8b4383e4ef3, -49); (422, -0x1206f48712c2e9, -50); (423, -0xbc998e73ef25d, -48); (425, -0x473f40985cf81, -48); (426, -0x17648d6981b94b, -50); (427, -0xb88d852884395, -49); (431, -0x19c5af1dd3851b, -49); (433, -0x98dcc3416f949, -48); (434, -0x13de788324ec1, -47); (435, -0xb2bd78b36490f, -49); (438, -0x512ae6d1536f9, -49); (439, -0x618b2bb78f85f, -47); (444, -0x1de1480259c217, -50); (445, -0xc928ce3f39c7d, -49); (446, -0x1f2b5e2e2d34bb, -50); (447, -0xfa267b475558f, -49); (448, -0x18a3b481057723, -50); (449, -0x8cefe1077f82f, -48); (450, -0x84d17212ba573, -48); (451, -0x13804f9e5f181f, -49); (452, -0x11cbeae179f8d3, -51); (454, -0xce31a7de739af, -49); (456, -0x147e7c981d9631, -49); (459, -0x1271f0c3b181a5, -49); (460, -0x83de0c19c1b95, -48)]);
  (207, [(100, -0x1669f5ff13cf07, -51); (101, -0x13e82acf4b15e3, -50); (103, -0x1a11f9cec7dd1, -46); (104, -0x30b567b997bf9, -47); (106, -0x158f4e5cef8cd9, -50); (107, -0x1e7fbdba91dcd9, -51); (108, -0x110ce61c61ce31, -49); (110, -0x5ce261815247b, -47); (112, -0xcc76d5d8640bd, -49); (115, -0x12bce0cd6b47c5, -50); (117, -0x1bd2511478fb73, -50); (120, -0xaf06c434f2ec3, -49); (122, -0x903b1bf358f67, -49); (124, -0x452c247c06013, -47); (125, -0x2e4b663336ec5, -48); (127, -0x145ee7efe66efb, -50); (128, -0x456f4bcb8b55f, -47); (129, -0xe11067aa3f6ab, -49); (130, -0x17921cc0a1e271, -50); (131, -0x1058555a1c6a27, -49); (132, -0xe471dbc8286f3, -49); (133, -0x1177e2c6216dc5, -49); (134, -0x5ba13f5060b61, -48); (135, -0x1075f625418ef5, -49); (138, -0x483533a0721d, -44); (141, -0x1453c5cfb5394b, -49); (142, -0xd17bcb10dffcb, -49); (143, -0x59dd7ee9a848f, -48); (145, -0x1bfa0a5d618a87, -50); (152, -0x11969fcaef64c3, -52); (153, -0x1e5e1c4a9d0b4f, -50); (155, -0xc149e5892e591, -48); (156, -0x8215b0d1041d7, -49); (157, -0x9b37469197c03, -48); (160, -0x156374514683e5, -49); (162, -0x32a0faf385aa1, -47); (400, -0x1fb107a0c28a51, -51); (401, -0x53c4d1c8a065f, -47); (402, -0x1fc9b40c651ced, -50); (404, -0x1021c5b7291343, -49); (406, -0xa7328edfe2bd, -45); (407, -0x577702b71e3c1, -49); (409, -0x994403d4d2361, -48); (410, -0x13202d2e0f8e53, -49); (412, -0x15ffe65165ebc3, -50); (413, -0xfc695ada7f509, -49); (414, -0x137a3b8577d277, -49); (417, -0x1c7b63bd1589ed, -50); (419, -0x12f0e19fc595ad, -49); (422, -0x25677d4ae5f49, -47); (423, -0xb4ac60121d77b, -48); (425, -0x1421d1078cae75, -50); (426, -0x194f3098250017, -50); (427, -0x3745789c90739, -47); (433, -0x983fdd32cb407, -48); (434, -0x155457be2c4dcd, -51); (435, -0x59d20544171e9, -48); (438, -0x89a2665cab3af, -49); (439, -0x1b6144f0237cc9, -49); (444, -0x1e839b50435701, -50); (445, -0x1858a85c0c84a9, -50); (446, -0xe2897c93bc4cf, -49); (447, -0x1d4442554a3e4f, -50); (448, -0x1d4f2a2701efd1, -51); (449, -0x1c72cefd02d6b3, -50); (450, -0x8c28023aa45bf, -49); (451, -0x10c887e2592e9f, -49); (452, -0x1ae45f5ac22123, -52); (454, -0xb682dc3429fa7, -49); (456, -0xb7e2528bc1e03, -48); (459, -0x141ad33eb2ac5f, -49); (460, -0x1def013c8146ed, -50)]);
  (208, [(100, -0x12bf1df8ac1921, -50); (101, -0x14918625fb61e1, -50); (103, -0x1d34d5fcc82e85, -50); (104, -0x7038ff6ed3833, -48); (106, -0x1682af1bf6525, -46); (107, -0x7ea451e3d661f, -49); (108, -0x16449aba762f8b, -50); (112, -0xf6a041dca1405, -49); (115, -0x22ffb5a09205f, -47); (117, -0x4333a136e6de9, -47); (120, -0x5c2dae401e45d, -48); (122, -0x9de735e0b8589, -49); (124, -0xf6a041dca1405, -49); (125, -0x1bab256459cdd3, -51); (127, -0x12f253e72f685d, -50); (128, -0xf6a041dca1405, -49); (129, -0x4333a136e6de9, -47); (130, -0x7038ff6ed3833, -48); (134, -0xc012f5fd9e9d1, -49); (135, -0x4333a136e6de9, -47); (138, -0xd59b7b1e47697, -50); (142, -0x1863f7bd98c4bd, -50); (143, -0xce899f7f36c59, -49); (145, -0x7038ff6ed3833, -48); (152, -0x1dc51d8bc19915, -52); (153, -0x4333a136e6de9, -47); (156, -0x12bf1df8ac1921, -50); (162, -0x1d34d5fcc82e85, -50); (400, -0x1f34050084867, -47); (402, -0x4333a136e6de9, -47); (404, -0xf6a041dca1405, -49); (406, -0x139d64210892df, -50); (407, -0x91c61da27ff35, -50); (412, -0x15d2b5987115b1, -50); (417, -0x4333a136e6de9, -47); (422, -0x43dc7970df0f5, -48); (425, -0x11f3e73f9d617, -46); (426, -0x7038ff6ed3833, -48); (427, -0x1a6f0d9ce8e747, -50); (434, -0xae854f3e2e28d, -50); (435, -0xce899f7f36c59, -49); (438, -0x146e1f859f5b07, -51); (445, -0xa22d19814251b, -49); (448, -0x137ed25a96e84d, -50); (449, -0x1ce6d8be5deafd, -51); (450, -0x4333a136e6de9, -47); (452, -0x11f7a71de160ab, -52); (454, -0x1682af1bf6525, -46); (460, -0x15d2b5987115b1, -50)]);
  (209, []);
  (210, [(100, -0x19fe3dad00ba3b, -50); (106, -0x1472aced422bbf, -50); (107, -0x1d520f9806f4fd, -51); (110, -0x3218851c66ecb, -48); (117, -0x19fe3dad00ba3b, -50); (120, -0x1472aced422bbf, -50); (122, -0x15b67623052033, -51); (124, -0x19fe3dad00ba3b, -50); (125, -0x496515dec5487, -49); (127, -0xdd0a662c8e2e3, -50); (130, -0x1738754d2172fd, -50); (132, -0x1738754d2172fd, -50); (134, -0x19fe3dad00ba3b, -50); (135, -0x19fe3dad00ba3b, -50); (138, -0xb3cd40f678135, -50); (141, -0x19fe3dad00ba3b, -50); (142, -0x19fe3dad00ba3b, -50); (143, -0x12d37aae76323b, -50); (152, -0xfbbbb9767f413, -50); (156, -0x19fe3dad00ba3b, -50); (400, -0xb56c0f8bcb35, -46); (404, -0x1738754d2172fd, -50); (406, -0x1738754d2172fd, -50); (407, -0x199e9ba1fdefe7, -51); (410, -0x1599430e557979, -50); (417, -0x89a2437d51c5b, -49); (422, -0xfbbbb9767f413, -50); (425, -0x1dce385b073a87, -51); (426, -0x89a2437d51c5b, -49); (427, -0x89a2437d51c5b, -49); (434, -0x89a2437d51c5b, -49); (435, -0x1738754d2172fd, -50); (438, -0x5df128eacf8f9, -50); (445, -0x1472aced422bbf, -50); (447, -0x1738754d2172fd, -50); (448, -0x1472aced422bbf, -50); (449, -0x8d67246b17241, -49); (450, -0x100db24e96eafd, -50); (452, -0x4e02c739d39f7, -49); (454, -0x91ad080ba11d3, -49); (460, -0xe3722a9fe60a5, -50)]);
  (211, []);
  (212, [(100, -0x11597b653cde15, -50); (101, -0x17b868230c2553, -50); (103, -0xdfc38d1464087, -49); (104, -0x513688ebc94a3, -48); (106, -0x11a7768d4a931, -46); (107, -0x6eca78e31abaf, -49); (108, -0x4883856edf24b, -47); (112, -0x2445949123683, -47); (115, -0x16f6c461657c33, -50); (117, -0x15ac7c5b5620cf, -50); (120, -0xb5fe21c81c819, -49); (122, -0x1ae970e056349d, -51); (124, -0x7e2b4586556ab, -48); (125, -0x722b934508d85, -50); (127, -0x10196e4076e507, -50); (128, -0xeb2438f9f122d, -49); (129, -0xc9b59ae221cd9, -49); (130, -0x70a1fe53bcc5d, -49); (131, -0x198f6eb167da87, -50); (132, -0x5b1960f2c1bf3, -48); (133, -0x87831f4416c1, -44); (134, -0x1502c5c2d0df71, -50); (135, -0x3680e02899, -35); (138, -0x1e6b85b6cc8985, -51); (140, -0x190f564b65fb47, -49); (141, -0x1277de5d651a23, -49); (142, -0x14ce5ab52615c1, -50); (143, -0x14663cbf914853, -50); (145, -0x3a18c65c0ec6b, -47); (152, -0x8270320ba5f53, -50); (153, -0xfe915c6f3554b, -49); (156, -0x88bf441b3d0e9, -49); (157, -0x2f58e436ecaf5, -46); (160, -0x15d74e0c6849a1, -49); (162, -0x64343e4618849, -48); (400, -0x113921781d04cb, -50); (401, -0x1579f4cc20b747, -49); (402, -0x1f9eb3b7442ed1, -50); (403, -0x2f58e436ecaf5, -46); (404, -0x1b662d6bae8289, -50); (406, -0x100584c615abed, -50); (407, -0x1568b73c157467, -51); (409, -0x8f97fdb50ff2b, -48); (410, -0x54ac1fd67ebff, -47); (412, -0x13ac25c669f267, -50); (413, -0xec3d1e6017905, -49); (414, -0x4883856edf24b, -47); (417, -0xb496ed1aee7f9, -49); (419, -0x1e692a99589495, -50); (422, -0x10cbdead930435, -50); (423, -0x54ac1fd67ebff, -47); (425, -0x1165bd225dc8b7, -50); (426, -0x14f13b58a77123, -50); (427, -0x17335596819e99, -50); (433, -0x94fa2e6b54bfd, -48); (434, -0x187d4cad4bf59, -47); (435, -0xa110d10ef289f, -49); (438, -0x6fc0f230fb037, -49); (439, -0x2f58e436ecaf5, -46); (443, -0x190f564b65fb47, -49); (444, -0x1e692a99589495, -50); (445, -0xaf7021e06875f, -49); (446, -0x447a30c575b07, -47); (447, -0x81c72025a4483, -48); (448, -0x427ab686445bb, -49); (449, -0x6a7afafd7b747, -48); (450, -0xe565b01fdef81, -49); (451, -0x13a4d0bd12a93f, -49); (452, -0x12bdcf611ca5b9, -51); (454, -0xc4267c02ad159, -49); (456, -0x2f58e436ecaf5, -46); (459, -0x4caf23279339f, -47); (460, -0x1c9043c4fe85e5, -50)]);
  (213, []);
  (214, [(107, -0x8e2a32f7c5185, -49); (125, -0x132b476158aee9, -54); (132, -0x3bfdf7fc656f3, -48); (152, -0x61cdacf9d0a47, -49); (404, -0x8e2a32f7c5185, -49); (425, -0xb5535e0fd3fbd, -50); (448, -0x11f6a243444309, -51)]);
  (215, [(100, -0x4b62357f3e3cf, -48); (101, -0x1740e7bb334b99, -50); (103, -0x216570c2b1301, -46); (104, -0x63e1df8baeab1, -48); (106, -0x1bba6af5ca82b5, -51); (107, -0x19450bac7deb81, -51); (108, -0x93ff6231d3387, -48); (110, -0x156eb001b129c1, -49); (112, -0x4e5670c62b5d7, -48); (115, -0xd85e88c43d6e1, -50); (117, -0xd985469eac9f9, -49); (120, -0x92ac210f7a2c1, -49); (122, -0x117b7183da0e9f, -50); (124, -0x1e8025c7c3709f, -50); (125, -0x164e1cdabd059, -47); (127, -0x79cb93a6fd95, -45); (128, -0x1d711a3723d6ff, -50); (129, -0xcfe4cb15342a5, -49); (130, -0xa47cd34acd0b, -45); (131, -0x1e8025c7c3709f, -50); (132, -0xcba3ecde82ef3, -49); (133, -0x8517b89e8adf7, -48); (134, -0x1617c98851e035, -50); (135, -0x3da1a36df6507, -47); (138, -0x3ba63833bb65f, -48); (141, -0x2779bdf680fdb, -46); (142, -0x5aefe995ab221, -48); (143, -0x1173b025079b67, -50); (145, -0x5c51130a376c3, -48); (152, -0x9d7240ba3cfb7, -50); (153, -0x9bc40609befa3, -48); (156, -0xb1f37776dca8b, -49); (160, -0x71af2e3113be9, -48); (162, -0x18d60341933791, -50); (400, -0x130a98fb59bde3, -50); (401, -0x12159c91483ba7, -49); (402, -0x3da1a36df6507, -47); (403, -0x58f924845c9a1, -47); (404, -0x1ba35a48106eb, -46); (406, -0x73767fd2ffed1, -49); (407, -0xb3f96948740e9, -50); (409, -0x45180dc788fb9, -47); (410, -0x8021539aeebdd, -48); (412, -0x13ab1aab1ccc8f, -50); (413, -0xe52596ced2cd, -45); (414, -0x1109b56305e8ff, -49); (417, -0xc921bfcb5f6d7, -49); (419, -0x192c60c83c2321, -50); (422, -0x12c7d8de4ab11b, -50); (425, -0x4a606405a0da1, -48); (426, -0x152d3ced9bb1b7, -50); (427, -0x5af8d3943a49, -44); (433, -0x12a8e7a1d1e283, -49); (434, -0x1ad02866c3fe35, -51); (435, -0x1545a80ccc4d9d, -50); (438, -0x18ba3290add0c9, -51); (439, -0x17a12d5106ca23, -49); (444, -0xde4ffd74d11c9, -49); (445, -0x110d669606a0fb, -50); (446, -0x77545637a9187, -48); (447, -0xed0efcfb37b7, -45); (448, -0xd184d71e19cfd, -51); (449, -0x2033e7b5e2ff5, -47); (450, -0x14674f21f39243, -51); (451, -0x3ce17f61cb063, -47); (452, -0x15309628e0944f, -51); (454, -0x17256596af4c77, -50); (456, -0x156eb001b129c1, -49); (459, -0x12d5746326fc5, -45); (460, -0x9974c10c5886b, -49)]);
  (216, [(107, -0x104b88c07b326b, -51); (122, -0x19157dfdd1b3f, -47); (125, -0x19157dfdd1b3f, -47); (127, -0x19157dfdd1b3f, -47); (129, -0x104b88c07b326b, -51); (132, -0x4e27b4f84c95d, -49); (406, -0x19157dfdd1b3f, -47); (407, -0x104b88c07b326b, -51); (434, -0x1bfcb8fca92df1, -52); (444, -0x19157dfdd1b3f, -47); (452, -0x4e27b4f84c95d, -49); (460, -0x19157dfdd1b3f, -47)]);
  (217, [(100, -0x1344ff907348f, -46); (101, -0xb6fe84a78d2cf, -49); (103, -0x1e94e14a766287, -50); (104, -0xa2f98d27b31a1, -49); (106, -0x151d6a89546b17, -50); (107, -0x7f02c9052fc29, -49); (108, -0xbdd69facc8c3, -44); (112, -0x1420a1a5eecd7b, -50); (115, -0x1b28ad8dda693d, -50); (117, -0x1d8a240a3bba9d, -51); (120, -0x311411484ee01, -47); (122, -0x8361fbe513ec7, -49); (124, -0x1f37c3256bea73, -50); (125, -0x2606b9a0969ff, -49); (127, -0x97b18583426a1, -49); (128, -0x21fd8b854b31b, -46); (129, -0x1c2576714006d9, -50); (130, -0x871db093a40cf, -49); (131, -0xc1268663d7f9d, -49); (132, -0x50ce418aba083, -48); (133, -0x1657efc5a974c1, -49); (134, -0x17e49cbd0c5a57, -50); (135, -0xeb54495066a01, -49); (138, -0xa4d2c331da38d, -49); (141, -0x24a09cce8b8cb, -46); (142, -0x170a590069eeb7, -50); (143, -0x1224a9f868333f, -50); (145, -0xd24a7e8cd319d, -49); (152, -0x1c4269ca12ff7b, -52); (153, -0x1e0862d70ee297, -50); (156, -0x17fedd4e6da3dd, -51); (157, -0xbdd69facc8c3, -44); (160, -0xbdd69facc8c3, -44); (162, -0x8afd50b3a4691, -48); (400, -0x25e426f481775, -47); (401, -0x158856a64377ff, -49); (402, -0x109010f70e905f, -49); (404, -0x153b83d036e9a7, -50); (406, -0x1f0bd481052503, -51); (407, -0x1a74a0ba27dc01, -51); (409, -0x4a664bab32d53, -47); (410, -0x158856a64377ff, -49); (412, -0x119cefa8e5ff25, -50); (413, -0x109e7d60d51b6f, -49); (414, -0x1482cbb69b66b9, -49); (417, -0x1525ed07ee0de1, -50); (419, -0x7312b781cba59, -48); (422, -0x104899d2484bf3, -50); (425, -0x7296b9a416d47, -49); (426, -0x142bb9ce53e77d, -50); (427, -0xd7b5bc0ae41d7, -49); (433, -0xbdd69facc8c3, -44); (434, -0x1c911923c74547, -51); (435, -0x1e2e67d2ca1e1, -47); (438, -0xaabc3f930a66b, -49); (444, -0x5ff99210cfd8d, -48); (445, -0x11fc79e14815d7, -50); (446, -0x448d701e60dcf, -47); (447, -0x108209ba0a6671, -49); (448, -0xc499e645f73ef, -50); (449, -0x1ba2e3972e12b9, -50); (450, -0x1f6e25917731cd, -50); (451, -0x10dca06374cd89, -49); (452, -0xb5cf20d2ee391, -50); (454, -0x169bf281a17557, -50); (456, -0x158856a64377ff, -49); (459, -0xa12b93b29ea3, -44); (460, -0x101dd117f025f7, -49); (461, -0xbdd69facc8c3, -44)]);
  (218, [(125, -0x1d5240f0e0e077, -53); (156, -0x19c041f7ed8d33, -52); (422, -0x19c041f7ed8d33, -52); (448, -0x19c041f7ed8d33, -52)]);
  (219, []);
  (220, [(100, -0x890618ed6dc77, -49); (101, -0x16868208a20e09, -50); (103, -0x1f20bd9770f8db, -50); (104, -0x534fd0b5f961b, -48); (106, -0xe9858b0d423cd, -50); (107, -0x1b714c4c576547, -51); (108, -0x12fd6a5361e4a1, -49); (110, -0x14911b024400cd, -49); (112, -0x135fd6a611f0b1, -50); (114, -0x5f248d0506c9d, -47); (115, -0x9a02a0581bc3f, -49); (117, -0x16e49812eefd1, -46); (120, -0x11f44b2a29b0e5, -50); (122, -0x10ee5180718037, -50); (124, -0x73aba7ba4bfd5, -48); (125, -0x1fcca44571c507, -52); (127, -0x10bb7c019fa027, -50); (128, -0x1e854a8e5e8e1f, -50); (129, -0x363f332a82725, -47); (130, -0x11e2fd5906e287, -50); (131, -0xd5b1731fe5a9b, -49); (132, -0x17ed9ea2658d3b, -50); (133, -0x497a76cbb981b, -47); (134, -0x147aa420b8ea1b, -50); (135, -0x1d5b1b0185a805, -50); (138, -0x73274d10b2989, -49); (141, -0x11cb52a264b98f, -49); (142, -0x5cae31fe6c0dd, -48); (143, -0x11a121cc377ef9, -50); (145, -0x17aa7dfa1ff9e9, -50); (152, -0x11f985091b3e5d, -51); (153, -0x247b25030647f, -46); (155, -0x5f248d0506c9d, -47); (156, -0xf7e31222943cf, -50); (160, -0x10eaefaf1d679d, -49); (162, -0x1b5f390e80cf81, -50); (400, -0x125653dde00167, -50); (401, -0x1596a5f1ec1213, -49); (402, -0x84158c7e87105, -48); (404, -0xcfd4745f6af81, -49); (406, -0x3491f12fe4259, -48); (407, -0xb44175c8420e5, -50); (409, -0x12fd6a5361e4a1, -49); (410, -0x432bb4103111, -43); (412, -0x109d2bee55357b, -50); (413, -0x7bfed26681333, -48); (414, -0x497a76cbb981b, -47); (417, -0x181b031b852a5b, -50); (419, -0x1ac15f617ec0eb, -50); (422, -0x11554958655121, -50); (423, -0x5f248d0506c9d, -47); (425, -0x41182bd2a68ad, -48); (426, -0x14fc5f1d5c8821, -50); (427, -0xc092c558b25bb, -49); (433, -0x13a076b172c797, -49); (434, -0xc148fbd0b7b41, -50); (435, -0x135fd6a611f0b1, -50); (438, -0xc947fba21813b, -50); (444, -0xeda97bef8928b, -49); (445, -0x1244a60721a20f, -50); (446, -0x1cfe6b4d4cc905, -50); (447, -0x735f179b0c509, -48); (448, -0x7ff654dd8ab69, -50); (449, -0x4aad879416509, -48); (450, -0x1061d962de4dc7, -50); (451, -0x1f42e088bc3b6f, -50); (452, -0xa5fa39b95e6f5, -50); (454, -0x67001b3ed357f, -48); (456, -0xa81ad70b1359b, -48); (459, -0x50cf0707f1b9d, -47); (460, -0x53bca24215b0d, -48)]);
  (221, [(100, -0xea77cb44406eb, -50); (107, -0x17c368a8c97f5b, -51); (125, -0x17761ddbb61597, -52); (130, -0xea77cb44406eb, -50); (131, -0xea77cb44406eb, -50); (143, -0xea77cb44406eb, -50); (152, -0xcac47294c6263, -51); (406, -0xea77cb44406eb, -50); (407, -0x1237d7e90af0df, -51); (412, -0xea77cb44406eb, -50); (425, -0x1485042b318c51, -51); (434, -0x17c368a8c97f5b, -51); (448, -0x1237d7e90af0df, -51); (452, -0xea77cb44406eb, -50)]);
  (222, [(100, -0xdb9a63b41a2b5, -50); (101, -0xc037e10d7d7c9, -49); (103, -0xe387164a08947, -49); (104, -0x91f38bd16f17d, -49); (106, -0x97a7b6f2ee589, -49); (107, -0x7e38a789e435b, -49); (108, -0x4704ca5302ff5, -47); (110, -0xb096d40139313, -48); (112, -0x8c32e2208bdbb, -49); (114, -0x1a1a7bde8ad48f, -49); (115, -0xa5b659040f0c3, -49); (117, -0x13acc68780f363, -50); (120, -0xaafc710fad07f, -49); (122, -0x1ff8280cd7afa5, -51); (124, -0x412beec631071, -47); (125, -0x9f15712877a91, -51); (127, -0x108bb3dfc425c1, -50); (128, -0x10586eaee9836d, -49); (129, -0x1acf730bfeb8d3, -50); (130, -0x11c81d36077269, -50); (131, -0x1acda9273df7a1, -50); (132, -0x16215bb12e038f, -50); (133, -0x46e585c5970af, -47); (134, -0xc156f6f004c9f, -49); (135, -0x1a66e0a321ca9b, -50); (138, -0x88cc52fc2bf59, -49); (140, -0x1a1a7bde8ad48f, -49); (141, -0xa60a8edc37c53, -48); (142, -0x16d057f7a70999, -50); (143, -0x90a831dbb46df, -49); (145, -0x403fc6ae5bead, -47); (152, -0x925ad9583273, -46); (153, -0x49c8e0bc9b0fd, -47); (156, -0x8460ec388c4e3, -49); (157, -0x1718656fcf376b, -49); (160, -0x238a4d733f399, -46); (162, -0x15d17da6ee9eeb, -50); (400, -0x1c05adea7f711b, -51); (401, -0x165c1f03ae1519, -49); (402, -0x1d78fb6771f3f1, -50); (403, -0x16b1a7209aaa5b, -49); (404, -0x18394d9d867d21, -50); (405, -0xdbeb0073d3c17, -48); (406, -0x8dd6730029af9, -49); (407, -0x18a7162e35dcd9, -51); (409, -0x124787309fcda3, -49); (410, -0x92e36e7bb52d9, -48); (412, -0x101cff6b32bd05, -50); (413, -0xe1d935b6b4bc1, -49); (414, -0x8579a29d3411f, -48); (417, -0x2f7e0e26999e1, -47); (419, -0xf4c5023b6de9f, -49); (422, -0x111ab9dccef495, -50); (423, -0x17e7fe8f35342d, -49); (425, -0x14ac2136bf38f3, -51); (426, -0x126bb1bbb55515, -50); (427, -0xc106003300a8f, -49); (431, -0x18b797ae9b30f, -45); (433, -0x1277d0ade7c9cf, -49); (434, -0xddf6794936933, -50); (435, -0x90f7bec096a47, -49); (438, -0x20b2a1b97f3e9, -47); (439, -0xdbeb0073d3c17, -48); (444, -0x1c10a27e746ca3, -50); (445, -0x5aac81bcbf7d, -44); (446, -0x432e9fe9c4dcf, -47); (447, -0x80a84f0a516a1, -48); (448, -0xd6713ab994c3d, -50); (449, -0x1701a11c495fe5, -50); (450, -0x325a8c2dbf55b, -47); (451, -0x4481354ace3c5, -47); (452, -0xa5b5211a2770f, -50); (454, -0xb7227e7a040d5, -49); (456, -0x50dbb974269f1, -47); (459, -0x11a658510fb7df, -49); (460, -0x191fadea767e5d, -50)]);
  (223, []);
  (224, [(100, -0x41a2204201da7, -48); (101, -0x1901f3176fbb49, -50); (103, -0x76a41063c5d3d, -48); (104, -0x148ed8a296a1df, -50); (106, -0x502d892157b51, -48); (107, -0x1f2417c2f2b88b, -51); (112, -0x113342aa874575, -50); (115, -0x16c4e72ba1b32f, -50); (117, -0x8f0f48af78daf, -49); (120, -0x5972b5ca910a5, -48); (122, -0x13ad2814937507, -50); (124, -0x10a9a61b86c881, -49); (125, -0x12852e4474ffef, -52); (127, -0x13ad2814937507, -50); (128, -0x12dc236adc68e3, -49); (129, -0x76a41063c5d3d, -48); (130, -0x4819f17786db1, -48); (131, -0xe106a7cfc9b1, -45); (132, -0xc44ab7cdb87bf, -49); (133, -0x12dc236adc68e3, -49); (134, -0x630f7ad7be621, -48); (135, -0x105ab94505c137, -49); (138, -0x11f0625ce7f2c9, -50); (142, -0x2a1b3917c4c47, -47); (143, -0x1851f993ea7eab, -50); (145, -0x1a0c7abe7ab525, -50); (152, -0x914c383ec9ed5, -50); (153, -0x76a41063c5d3d, -48); (156, -0xd52b2df2b7a53, -50); (160, -0xa1f83cd660641, -48); (162, -0x198aaf8b80fa6d, -50); (400, -0x1ef8383c50bb75, -51); (402, -0x6fcd40dabcfc3, -48); (404, -0x19f12bd2b6782f, -50); (406, -0x944b18f1ccd3d, -49); (407, -0xcd86e2004e8a5, -50); (409, -0x12dc236adc68e3, -49); (412, -0x6672405ee0259, -49); (413, -0x1106ff5bce5adb, -49); (414, -0x1106ff5bce5adb, -49); (417, -0x17fbdfb1703c19, -50); (419, -0x9064525bb361, -44); (422, -0x1263fedfc37721, -50); (425, -0x11ea0c8354efb9, -51); (426, -0x1487db3fd3ab15, -50); (427, -0x1a6310f4bb9209, -50); (433, -0xa1f83cd660641, -48); (434, -0x3d8369f4dff2d, -48); (435, -0x13766257b12ccd, -50); (438, -0x111859d071e18f, -50); (444, -0x45e4fcebb3151, -47); (445, -0x179d4894dc4acb, -50); (446, -0x1f483657bd6e79, -50); (447, -0x105ab94505c137, -49); (448, -0x162901ce04d06f, -51); (449, -0xf734eacec3eaf, -49); (450, -0x1944097a463431, -50); (451, -0xa1f83cd660641, -48); (452, -0x2edbd30596949, -48); (454, -0x19a35c92d0c2dd, -50); (459, -0xa1f83cd660641, -48); (460, -0x105ab94505c137, -49)]);
  (225, [(100, -0xfe98dff570a2b, -50); (101, -0x16a9129a78aa2f, -50); (103, -0x1ce7d6d2c2d49f, -50); (104, -0x14b8f8ce5c433b, -50); (106, -0x861749d8a30b9, -49); (107, -0x37e95f90ab53f, -48); (108, -0x137eacbc4fb9fb, -49); (110, -0x5ea2216a9fbe7, -47); (112, -0x4bb06fd9fd74d, -48); (114, -0xe06c17ca9982f, -48); (115, -0x17906d8ea9b505, -50); (116, -0xfd1723c4c3a2f, -48); (117, -0x1712ede934a1ef, -50); (120, -0x16b3183c74fb59, -50); (121, -0x1b7a37e8c98981, -49); (122, -0x450bfbdd49fcb, -48); (124, -0x100ae3c5524b27, -49); (125, -0x1917496f32a121, -52); (127, -0x85a20aff4f6bb, -49); (128, -0x1f6e0e61c42633, -50); (129, -0x19fd00afd1b1af, -50); (130, -0x12825c06ea2299, -50); (131, -0x691e0f8b49a9f, -48); (132, -0xba62505e903d1, -49); (133, -0x914c85e75607, -44); (134, -0xb211cf8b28429, -49); (135, -0x36f853ec832e5, -47); (138, -0x10f3530019cb1b, -50); (140, -0x1ad72b8ab8a68b, -49); (141, -0x14671b0cbd433f, -49); (142, -0x16b927c17ec4d, -46); (143, -0x2690f3b46dbaf, -47); (145, -0x5eb86d58b3d41, -48); (152, -0x7d4aa81469c1d, -50); (153, -0xfabb8741c6517, -49); (155, -0xc52571db18315, -48); (156, -0x37179a8d690af, -48); (157, -0x17e4d669844581, -49); (160, -0x11f141f09c45e5, -49); (162, -0x19f73e73b4cabb, -50); (400, -0x8ed582bf293d3, -49); (401, -0xad92c8d17529, -44); (402, -0x10067d4d0ddcb9, -49); (403, -0x17599b8426e851, -49); (404, -0xcb49f7acffdb5, -49); (406, -0xd139d13777a6b, -50); (407, -0xb600cceb59b01, -50); (409, -0x87042a9ac4259, -48); (410, -0x131ef7770a1075, -49); (412, -0x1a64c9d7e2cc95, -51); (413, -0x1d9281520ace1f, -50); (414, -0x12285a2401fc8f, -49); (417, -0xc1a676c7be5f3, -49); (419, -0x164f1443658821, -50); (422, -0x847595a02e123, -49); (423, -0xb7620f74366a5, -48); (425, -0x200549974f393, -47); (426, -0x137856b477dcf9, -50); (427, -0x5e308bd1efbfd, -48); (431, -0x1b07f809ab1f19, -49); (433, -0x99b04e1e80b55, -48); (434, -0x1829b64538c633, -51); (435, -0x12708a6421cd85, -50); (438, -0x105abd87ba0a61, -50); (439, -0x18e6d645a4f4d7, -49); (443, -0xfd1723c4c3a2f, -48); (444, -0x3c1d7c234a695, -47); (445, -0x8e0f9f16ea213, -49); (446, -0x882cd6cb50ea7, -48); (447, -0x1f000fa7b8a955, -50); (448, -0x14d559e2ec8285, -51); (449, -0xc659fc7e0dc33, -49); (450, -0xe0a2934c21e43, -49); (451, -0x104796e0fe07df, -49); (452, -0x522bbe0b3f03b, -49); (454, -0x18bd77fa1774f9, -50); (456, -0x14aaad2adb5e1f, -49); (459, -0x124eb70d4d4f4d, -49); (460, -0x6203975d331eb, -48)]);
  (226, []);
  (227, [(100, -0x4d9df93af3a63, -48); (101, -0x17179aedefb169, -50); (103, -0x11e037946c4f8b, -49); (104, -0xc6f3c18b4eddd, -49); (106, -0x13ca172769a677, -50); (107, -0x1be120a1d544d1, -51); (108, -0x14044879fb64dd, -49); (110, -0x5401b96ad9edb, -47); (112, -0x1437007c7b13e5, -50); (115, -0x1569042b049dbb, -50); (116, -0xd9785bc42f66f, -48); (117, -0x1a357a38056dab, -50); (120, -0x5ee887bbe7d43, -48); (122, -0x21ec80085da1d, -47); (124, -0x101ffa24351993, -49); (125, -0x11ba36c56eb3cd, -51); (127, -0xc5f2d056a95f, -46); (128, -0x1aebb27be405b5, -50); (129, -0x14125cfe325bcd, -50); (130, -0x112d2406c4caa3, -50); (131, -0x1e218c268e03e5, -50); (132, -0x174133790a3cf7, -50); (133, -0x425939aaee7ad, -47); (134, -0x1802178739427d, -50); (135, -0x100ff9cedc90e5, -49); (138, -0x471b4c1bf1247, -48); (140, -0x19cc274896493f, -49); (141, -0x128c7dab34e93, -45); (142, -0x1403309421bb33, -50); (143, -0x48b9c93580679, -48); (145, -0x65b636eb9d41, -44); (152, -0x10caca5c6f517, -47); (153, -0x154b7df704c013, -49); (156, -0x293c2da96278b, -47); (157, -0xb06e536dcc4e5, -48); (160, -0x98c8053d78fd9, -48); (162, -0x3204ce580b6b7, -47); (400, -0x11932ac394aa25, -50); (401, -0x1484f4c2e05a55, -49); (402, -0xd8f1fc64ccf03, -49); (403, -0x174abd22bfa193, -49); (404, -0xc54f4df8067ef, -49); (406, -0x71b4423e6657, -45); (407, -0x15ff8b3862bd, -43); (409, -0x10e08f3c23af9b, -49); (410, -0x10fbe9c742fa8d, -49); (412, -0x42d78c540c965, -48); (413, -0x17f84d7a7b0d39, -50); (414, -0x132b4a4ba86d65, -49); (417, -0x13305813d4143b, -50); (419, -0x1b18a19073979f, -50); (422, -0x10c3edd681f6d, -46); (423, -0xad1bd5c63af31, -48); (425, -0xd0b4e034e5235, -50); (426, -0x1032eb3a7b281d, -50); (427, -0x11580fa69e7e9, -46); (431, -0xd9785bc42f66f, -48); (433, -0x488f8e64c8e29, -47); (434, -0x1539a6ee092251, -51); (435, -0x1f18a38fe630e7, -51); (438, -0x109d7632731b05, -50); (439, -0x8411cd6fd7da7, -48); (443, -0x1484f4c2e05a55, -49); (444, -0xbc807c2bc7613, -49); (445, -0xe80dd6c60204b, -50); (446, -0x396a0f8755367, -47); (447, -0x1dfbf71b84a69f, -50); (448, -0xae26f578d82fb, -50); (449, -0x5700b4091ad91, -48); (450, -0x39ae3853b8ea7, -47); (451, -0x1aeaa021982aa7, -50); (452, -0x40b2c59708c6f, -49); (454, -0x12326f57a96d19, -50); (456, -0x154b7df704c013, -49); (459, -0x1bd2e15e212379, -50); (460, -0x198c479971c0bb, -50); (461, -0x19cc274896493f, -49); (463, -0xc34a18c5352d, -44)]);
  (228, [(100, -0x12e3a31cd25ec9, -50); (101, -0x14db571ee4c22d, -50); (103, -0x1ff2789e61df25, -50); (104, -0x169b0c18c48a3b, -50); (106, -0x11b016a91cba55, -50); (107, -0xc56005632d73b, -50); (108, -0x138e9dce763393, -49); (112, -0x9c2ec25f2875d, -49); (115, -0x287afae3c5673, -47); (117, -0x1596099f73e6e1, -50); (120, -0x14a75975d0acf5, -50); (122, -0xf4d1c97a4d19d, -50); (124, -0x1f549ef15fd09, -46); (125, -0x8922fe6e8b889, -50); (127, -0xae1f2041da4d, -46); (128, -0x9c2ec25f2875d, -49); (129, -0xc3adf7454301d, -49); (130, -0x4673ca85333c9, -48); (131, -0xbb1858ea1f353, -49); (132, -0xbc60122e99cfd, -49); (133, -0x10c8d56e96ec55, -49); (134, -0x1715b943316833, -50); (135, -0x138e9dce763393, -49); (138, -0x87b80545678d3, -49); (141, -0x415a563de207b, -47); (142, -0x98263bd261beb, -49); (143, -0x454f185d9e497, -48); (145, -0x1aefa452b48fcd, -50); (152, -0x1ece283978f25, -48); (153, -0x48aee67a1a3fd, -47); (156, -0x13e5ea51fab3db, -50); (160, -0x138e9dce763393, -49); (162, -0x1960d478a3d179, -50); (400, -0x8dce5ba6cf2a1, -49); (402, -0x1ff2789e61df25, -50); (404, -0x68f46a83d6823, -48); (406, -0x90038c30a55bf, -49); (407, -0xca5032070fd47, -50); (409, -0x48aee67a1a3fd, -47); (410, -0x138e9dce763393, -49); (412, -0x409ebd5bf7a73, -48); (413, -0x154bfb3202a9df, -50); (414, -0x48aee67a1a3fd, -47); (417, -0xb81a2e8e0fd6b, -49); (419, -0x7b2f89f53a45b, -48); (422, -0x10a963c2379f4b, -50); (423, -0x138e9dce763393, -49); (425, -0x1e563646eaa4c3, -51); (426, -0x9c6c1f72ebb7d, -49); (427, -0x293a857ac93ed, -47); (434, -0xb20a18a7b6a61, -50); (435, -0x20adb3ca56127, -47); (438, -0xfcf68a40da307, -50); (444, -0x1829dbf2d5488f, -50); (445, -0x4840f3d30c631, -48); (446, -0x1f549ef15fd09, -46); (447, -0x1b219a5f32755d, -50); (448, -0x12dd1ec0b7ca79, -51); (449, -0xb81a2e8e0fd6b, -49); (450, -0x48aee67a1a3fd, -47); (451, -0x10c8d56e96ec55, -49); (452, -0x11e97301a7e0c9, -51); (454, -0x4fdb5d829fb57, -48); (456, -0x48aee67a1a3fd, -47); (459, -0x48aee67a1a3fd, -47); (460, -0xcf725e075526f, -49)]);
  (229, [(100, -0x834d00be39a6d, -49); (101, -0x18add8598efb31, -50); (103, -0x7d3275748c61, -44); (104, -0xbd0d7cd20fa49, -49); (106, -0x13aa15a2135a1, -46); (107, -0x1dca675a0e67f9, -51); (108, -0x2a21a879c9bc5, -46); (112, -0x96868ad894565, -49); (115, -0x138e88017a1ce5, -50); (117, -0x61a201bf4d59f, -48); (120, -0x177f235a089193, -50); (122, -0x10309c39128f3d, -50); (124, -0x110932de812fbf, -49); (125, -0x1c3523e97716ed, -52); (127, -0x54f36a95eb041, -49); (128, -0x1c75e7ee969781, -50); (129, -0xe25fe5a3a9053, -50); (130, -0x1df25968ffa561, -51); (131, -0x1cdfee7fee049b, -50); (132, -0x9939770ddbb2d, -49); (133, -0x4a3da85c38d9f, -47); (134, -0xc13c7648cdd9b, -49); (135, -0x1a10e1c3e05eed, -50); (138, -0x93b0b45ecc9cd, -49); (141, -0x12de56ed8f3dc7, -49); (142, -0x14b6ee848a09ad, -50); (143, -0x97d2725cb04ef, -49); (145, -0x377c054d0da75, -47); (152, -0x10f61031dd8991, -51); (153, -0x2a21a879c9bc5, -46); (156, -0x9a007885df67b, -49); (157, -0x2a21a879c9bc5, -46); (160, -0xa209d8ebf70b3, -48); (162, -0x1b46f5d7026629, -50); (400, -0x123c7a20fbb32b, -50); (401, -0xa209d8ebf70b3, -48); (402, -0x1939615ed382f1, -50); (403, -0x1673b86cd481c7, -49); (404, -0xd7f52ef25c917, -49); (406, -0x7cbe5930aef41, -49); (407, -0x193b1b89cad12d, -51); (409, -0x105cecc7b8961b, -49); (410, -0x10abd99e399d65, -49); (412, -0x8c55c4f78626f, -49); (413, -0x19673d1f863b2b, -50); (414, -0x12de56ed8f3dc7, -49); (417, -0x868ece86252bb, -49); (419, -0x18ea4ba2cd1133, -50); (422, -0x3fcce156669b1, -48); (423, -0x1673b86cd481c7, -49); (425, -0x189ab92e15d9, -43); (426, -0x8275d72bf4c65, -49); (427, -0x1363eeb25e144b, -50); (433, -0x2a21a879c9bc5, -46); (434, -0x31a274cb0be4f, -48); (435, -0x1f1385d081eecd, -51); (438, -0x1116de41a7696b, -50); (439, -0x1e75dc628b9faf, -50); (444, -0x55000e12c3d49, -48); (445, -0x8cf5039fcd24b, -49); (446, -0x1eaec3b02109ab, -50); (447, -0x4a3da85c38d9f, -47); (448, -0xbe3de7c0a5237, -50); (449, -0xbe5536168a3f3, -49); (450, -0x1e75dc628b9faf, -50); (451, -0x1e3ff42564fca3, -50); (452, -0x26f01a2556805, -48); (454, -0x153d3ffa0b4ea3, -50); (456, -0x1673b86cd481c7, -49); (459, -0x1ecc7298cc7c93, -50); (460, -0x1b603edc308349, -50); (461, -0x1673b86cd481c7, -49)]);
  (230, [(100, -0x122225657ee8b5, -50); (101, -0xcd5af01d82c81, -49); (103, -0x8a1f58e42f2b, -44); (104, -0x9b9ac103ee1d3, -49); (106, -0x155db9028589f7, -50); (107, -0x8ed39a210c8d, -45); (108, -0x17d794860bdfef, -49); (110, -0x1b0f9cc5099195, -49); (112, -0xe4e24cd78b965, -50); (115, -0x6cbc02f914943, -48); (117, -0x2385f1078679b, -47); (120, -0xb823dc309739d, -49); (121, -0xcd65c4a8cf6fb, -48); (122, -0x869d91dddd7e1, -49); (124, -0x114b9e27f4dc23, -49); (125, -0x147607eb204717, -52); (127, -0x76411585f4a77, -49); (128, -0x1fe11636c06b39, -50); (129, -0x1558e65d0a0877, -50); (130, -0x118c07d21189ff, -51); (131, -0x16861c989dd14b, -50); (132, -0x1271fa8bfabddd, -50); (133, -0x15c86a3f53a2ab, -49); (134, -0xd9edc12d11dcd, -49); (135, -0x1edd8e1aefaeb, -46); (138, -0x4d29048d22e57, -48); (141, -0xb21f1eb94e1e1, -48); (142, -0x114bbc1e19282b, -50); (143, -0x44db81aee8545, -48); (145, -0x374315e59b1bb, -47); (152, -0xa08adf4e22573, -50); (153, -0x133ca8171e8aa9, -49); (155, -0x1b0f9cc5099195, -49); (156, -0x1145b025cfd8d, -46); (157, -0x15a51736b63f8d, -49); (160, -0x551ef7d9bab4d, -47); (162, -0x780911fad36d7, -48); (400, -0x129882455a4667, -50); (401, -0x15ee5bba3d2e81, -49); (402, -0xf6d40602f176d, -49); (404, -0x3430bcda03d6f, -47); (406, -0xecba683e16e37, -50); (407, -0x1e0e73f68d1c6d, -51); (409, -0x13e4d9c67f0995, -49); (410, -0xb21f1eb94e1e1, -48); (412, -0xfca15b297998d, -50); (413, -0xddff93c8b245d, -49); (414, -0x26b8ac724aaad, -46); (417, -0x13e281e06f421b, -50); (419, -0x1e04bcedf4806f, -50); (422, -0x81d136bcab24f, -49); (423, -0x1b0f9cc5099195, -49); (425, -0x197057a2926f55, -51); (426, -0x237aa7bbb3c7f, -47); (427, -0xac9dd69eb2567, -49); (433, -0x15c86a3f53a2ab, -49); (434, -0x1b604f0ff73787, -51); (435, -0x126fa6f6ba3517, -50); (438, -0x13b7d186a4b9bf, -50); (439, -0x17d794860bdfef, -49); (443, -0x1b0f9cc5099195, -49); (444, -0x15d556754f8833, -50); (445, -0x10896422490699, -50); (446, -0x1245a787b3101, -45); (447, -0x1147c0edc2197f, -49); (448, -0x1754e933b3dd97, -51); (449, -0xefeac17a86bab, -49); (450, -0x1b8d517ab33389, -50); (451, -0x10ef905042153d, -49); (452, -0x624e4bc49cd17, -49); (454, -0x18e816dc646bf9, -50); (456, -0xa9607a1c43265, -48); (459, -0x111f11669fc257, -49); (460, -0xf8e4b919a53e1, -49)]);
  (231, [(100, -0x13e3d1ac6ac88f, -50); (101, -0x150b249968ddb3, -50); (103, -0x1fe61affa63b2f, -50); (104, -0x110a52854aceb7, -50); (106, -0x14f0ec2721fbb5, -50); (107, -0x1f0c7a54fcb5a1, -51); (108, -0x58e1b3fd1e2a5, -47); (112, -0x15c2e4bacd6b8d, -50); (115, -0x1d20529fc6f3f1, -50); (117, -0x1376d31b3a9def, -50); (120, -0x60f7322a31ff, -44); (121, -0x58e1b3fd1e2a5, -47); (122, -0x1e3d088043c49b, -51); (124, -0x1d6561f3849f1f, -50); (125, -0x14475f56596d45, -52); (127, -0x135d4c04a71bc7, -50); (128, -0x11172bf47b277f, -49); (129, -0x1b1e2e3bce2d15, -50); (130, -0x710274955b837, -49); (131, -0x384b23fce905d, -48); (132, -0x12d6fce818c14b, -50); (134, -0x123e0259a69e05, -50); (135, -0x130064c049d8ed, -49); (138, -0x15323e3ff9f68b, -50); (141, -0x58e1b3fd1e2a5, -47); (142, -0x2ea81fcf6eb3, -43); (143, -0x827b8debb32cb, -49); (145, -0x1a2458f5a9c92f, -50); (152, -0x708ec4dff303f, -50); (153, -0x43379dc3d0e23, -47); (156, -0x1f2762e2f50865, -51); (160, -0x58e1b3fd1e2a5, -47); (162, -0x120fc06f789fb7, -49); (400, -0x1673c053be1a9f, -50); (402, -0x14d588cf57e6f5, -49); (404, -0x73796c3f93abb, -49); (406, -0xddbf6dc1f3e81, -50); (407, -0x696a06e66ff9b, -49); (409, -0x14d588cf57e6f5, -49); (410, -0x58e1b3fd1e2a5, -47); (412, -0x26ab2320832d, -43); (413, -0x58e1b3fd1e2a5, -47); (414, -0x9b9524fb421ab, -48); (417, -0x65b4b363a61e7, -48); (419, -0x11d372609c49d1, -49); (422, -0x1c7047e663c221, -51); (425, -0x1267df37bd0d75, -50); (426, -0x188fc341bb76ab, -50); (427, -0x396d52fdcd295, -47); (434, -0xc2ace91b70e7f, -50); (435, -0x108a0715f52341, -50); (438, -0x15c9fae1dc2f6d, -50); (439, -0x8789d3cc8cdd5, -48); (444, -0x1daf7060f5dc21, -50); (445, -0x114a1928c9bbb7, -50); (446, -0x9b9524fb421ab, -48); (447, -0x58e1b3fd1e2a5, -47); (448, -0x16bd711f054bfb, -51); (449, -0x8cec0482d1aa7, -48); (450, -0x9b9524fb421ab, -48); (451, -0x9b9524fb421ab, -48); (452, -0x1c806b6d2c9a7, -47); (454, -0x1f41ea228d52df, -50); (459, -0x14d588cf57e6f5, -49); (460, -0x8cec0482d1aa7, -48)]);
  (232, [(100, -0x13cbcdf6806a7d, -50); (101, -0x19039376ae2765, -50); (103, -0x46c004eb383f5, -47); (104, -0x4b2c7b2acda47, -48); (106, -0xa380ffb05a11d, -49); (107, -0x11501404126041, -50); (108, -0xb31f457fd2bf1, -48); (112, -0x4209c8a750fe9, -48); (115, -0x34ccd48dbd253, -47); (117, -0x158625f0d13b49, -50); (120, -0xcb3af65ca40c1, -49); (122, -0xe8fa48aed947f, -50); (124, -0xfb9d1fa54c559, -49); (125, -0x95f2a0d461025, -51); (127, -0xf8fa637535a15, -50); (128, -0x4022fb4357329, -47); (129, -0x1734be467b2255, -50); (130, -0xfa5371da69f49, -50); (131, -0x17a0a1e6ff4b5b, -50); (132, -0x1aa7aa5d8e9a8f, -51); (133, -0x2862d6c1496f, -42); (134, -0x17db29a337d461, -50); (135, -0xf16c59c43e263, -49); (138, -0x1416ed9971dfcf, -50); (141, -0x15944f90945b1f, -49); (142, -0xbb2309bf116f, -45); (143, -0x92774dbcbfd6b, -49); (145, -0xd404d8bd5545, -45); (152, -0x12ad555cb03481, -51); (153, -0x123b3c202b6d05, -49); (155, -0x17c6ccdfe9fb81, -49); (156, -0x1f241f8130d8b9, -51); (160, -0x150104800ab443, -49); (162, -0x386a7eee232f5, -47); (400, -0x11ed20f8bfc8ad, -50); (401, -0x17c6ccdfe9fb81, -49); (402, -0x1cc9a90cd2a1fb, -50); (403, -0x17c6ccdfe9fb81, -49); (404, -0x61f82df8b5713, -48); (406, -0xe8b18857d828d, -50); (407, -0x7275d478e2679, -49); (409, -0xa4762507624ed, -48); (410, -0x15944f90945b1f, -49); (412, -0x6f3085509b0b1, -49); (413, -0x1b9765ca0f8913, -50); (414, -0x46c004eb383f5, -47); (417, -0x12f0132428c35, -46); (419, -0x6652d299eeccd, -48); (422, -0x815256224be09, -49); (423, -0x150104800ab443, -49); (425, -0xd452b443cbe6d, -50); (426, -0x104301cb2649b1, -50); (427, -0x167a0bc5ebfda1, -50); (433, -0x2862d6c1496f, -42); (434, -0x1a8f0095b994c1, -51); (435, -0x867b8672c7189, -49); (438, -0x12ae30000d3733, -50); (439, -0x2862d6c1496f, -42); (444, -0xd1514cbe0ba8f, -49); (445, -0x106b9445d58b7, -46); (446, -0x1f0b6a3bac1a17, -50); (447, -0x213813c2bee7, -42); (448, -0x18389bba67d1, -43); (449, -0x1b3a3e155e8673, -50); (450, -0xe0a9f66304327, -49); (451, -0x22396c5488d1f, -46); (452, -0x16ce16de4ec1c3, -51); (454, -0xbe0124106e1c7, -49); (456, -0x125c475196a979, -49); (459, -0x8268e856f361b, -48); (460, -0x1c2d272b73c8bf, -50)]);
  (233, [(100, -0x17294f8201fb67, -50); (101, -0x11203880bf8c3, -45); (103, -0x11203880bf8c3, -45); (104, -0x11203880bf8c3, -45); (106, -0xcbb3de2144b6d, -49); (107, -0x12af37aa65eb33, -50); (110, -0x11203880bf8c3, -45); (112, -0x776dd98b4f5e7, -48); (115, -0x642a608e91b75, -48); (117, -0x642a608e91b75, -48); (120, -0x17fdeeebe65237, -50); (122, -0x47dd517d57f0b, -49); (124, -0x776dd98b4f5e7, -48); (125, -0x3781c3d0150b9, -48); (127, -0x4b678fa6da801, -48); (129, -0x1f7aa8a19fd121, -50); (130, -0xcbb3de2144b6d, -49); (132, -0x776dd98b4f5e7, -48); (133, -0xac3648f5ede49, -50); (134, -0x11203880bf8c3, -45); (135, -0x11203880bf8c3, -45); (138, -0x4e63d134ec45d, -48); (142, -0x642a608e91b75, -48); (143, -0x18a8ff25bf7cb9, -50); (152, -0x145fcb01ba2f5b, -51); (156, -0x776dd98b4f5e7, -48); (162, -0x1b15ae02f4905f, -50); (400, -0x14ec439633f34d, -50); (402, -0x1f7aa8a19fd121, -50); (406, -0x17294f8201fb67, -50); (407, -0x67fdbf805c15d, -49); (409, -0x11203880bf8c3, -45); (410, -0x17b20bf6133a8b, -50); (412, -0x1612d9b7474107, -50); (417, -0x92f6e66b6fd05, -49); (422, -0x326ba9da58765, -48); (425, -0x90a2dafe8bf03, -49); (426, -0x19ef17e1e142a5, -50); (427, -0x17b20bf6133a8b, -50); (433, -0x1a9ca653f0231, -47); (434, -0x9432040eb4bf, -45); (435, -0xe2145e32b571d, -50); (438, -0xff3eff899cc67, -50); (444, -0x1f7aa8a19fd121, -50); (445, -0x5095cb028a459, -48); (446, -0x776dd98b4f5e7, -48); (447, -0x11203880bf8c3, -45); (448, -0x4ae42fc7f1545, -49); (449, -0x1538268c070af9, -50); (450, -0x71bffeb114ad7, -50); (451, -0x26cb7cbd6f847, -47); (452, -0x1f476528e2df77, -52); (454, -0x5095cb028a459, -48); (459, -0x8b76b082b8399, -49); (460, -0x501f0f5fdc79f, -48)]);
  (234, [(100, -0x1da957c50d1385, -51); (101, -0x295f71a79f601, -47); (103, -0x1dc8b8de1d4475, -50); (104, -0x8855c2dc4c009, -49); (106, -0xcf0d9a1f2957d, -49); (107, -0x1f7fc060c01cbf, -51); (112, -0x9dbc26c24f981, -49); (115, -0xb7f6c7121c947, -49); (117, -0x11e1331454d2ab, -50); (120, -0x149fc1740b68bb, -50); (122, -0xd77a3470ffa9, -46); (124, -0x179f4e715ca763, -50); (125, -0x5119f5f525219, -50); (127, -0x1da957c50d1385, -51); (128, -0xe1e5553909b1, -45); (129, -0x17e164d433204b, -50); (130, -0x1b716e124f0fff, -51); (131, -0x127b11a3bdf499, -50); (132, -0x13e0820041d547, -50); (133, -0x130d08fedd8d17, -49); (134, -0xbb09d07ee424f, -49); (135, -0x19a85cb4169a45, -50); (138, -0x17a255be77530b, -51); (140, -0x13dca21e4389d9, -49); (141, -0x4079150d9b299, -47); (142, -0x2591ef33ea655, -47); (143, -0xe24cdbac3f141, -50); (145, -0x445b66f9910a7, -47); (152, -0x1d36238cf9e9ed, -52); (153, -0x1ff0a790fa7d1d, -50); (156, -0x1b3cc57d345ef1, -51); (162, -0xe3c2abfae234f, -49); (400, -0x10ec9551d82a93, -50); (402, -0x81c9cb0fd0df5, -48); (404, -0x1a470ec24d212d, -50); (406, -0x16cc0495bddba5, -50); (407, -0x1280fc4d3bc5a7, -50); (409, -0x138db547c2828f, -49); (412, -0x14a58868694aed, -50); (413, -0x7336ddf1a8cd, -44); (414, -0x1f67eb1ce93df9, -50); (417, -0xabc93a018fd91, -49); (419, -0x903bf079abde9, -48); (422, -0x2001d3b1c3979, -47); (423, -0xbb901cec466ed, -48); (425, -0x10769417997639, -50); (426, -0x54f94e2bcb153, -48); (427, -0x166b18c24442cb, -50); (431, -0x160f1f6d992a3b, -49); (433, -0x1439fb5e8b1c33, -49); (434, -0x1c6526ca7b7223, -51); (435, -0x14ba03766ee7f3, -50); (438, -0x32ea25a78b987, -48); (444, -0x7b2845bf9cbd9, -48); (445, -0x1b2e853d9e39bb, -50); (446, -0x2286ccff72b8d, -46); (447, -0x12a64aafa90007, -49); (448, -0x12f3adc176a065, -50); (449, -0x129d5927525cbf, -50); (450, -0x102b91ec17fd7, -45); (451, -0x903bf079abde9, -48); (452, -0x1a6d352265b077, -51); (454, -0xcd1a714cf0307, -49); (456, -0x2a7f0c9c665af, -46); (459, -0x1279bdee53e63b, -49); (460, -0x122ad117d2def, -45)]);
  (235, [(100, -0xed0074ae9d23d, -50); (101, -0x1a2c4d117d1f3b, -50); (103, -0x6a57d8c975fa1, -48); (104, -0x9d235f6f40f93, -49); (106, -0x9f299de0887a1, -49); (107, -0x844fb3576030d, -49); (112, -0x1c9c69e3602689, -51); (115, -0x5b453cddfcbc1, -48); (117, -0x15867d83abca3f, -50); (120, -0x17af521027e2d7, -50); (122, -0x1d327057ac4697, -51); (124, -0x11bb3689951e37, -49); (125, -0xa038ca02d0f4b, -51); (127, -0x11dffc1fd2c2d7, -50); (128, -0x4b0305e4f4bdf, -47); (129, -0xc2301473f812b, -49); (130, -0x433489681fd2f, -48); (131, -0x1e9147b0285ffd, -50); (132, -0xc16aac3979cf3, -49); (133, -0x115ddd494d8bdd, -49); (134, -0x19ba67ef780561, -50); (135, -0x8b6c78c2c2369, -49); (138, -0x4708a14a118d, -44); (142, -0x54839c5854b1b, -48); (143, -0x8f2855525ab87, -49); (145, -0x1d065c952ed921, -50); (152, -0x898a20df73521, -50); (153, -0x17af521027e2d7, -50); (156, -0x433489681fd2f, -48); (160, -0x14f33ec892cfdd, -49); (162, -0x7378cc6eb6495, -48); (400, -0x82a956c7148b9, -49); (402, -0x787d8a388d189, -48); (404, -0x1943cb51e9f447, -50); (406, -0x10780f5d26823b, -50); (407, -0x19b48de7027d8f, -51); (409, -0x4b0305e4f4bdf, -47); (412, -0x11f6f0931a06c9, -50); (413, -0x20b0a4b34af53, -46); (414, -0x11bb3689951e37, -49); (417, -0xa43f85931d53f, -49); (419, -0x10ca9238c3e5, -41); (422, -0x1ddb8fbb2ec8db, -51); (425, -0x1a99f38928ca5, -47); (426, -0x1440f7063ca4ef, -50); (427, -0x1914e29ffd8e8d, -50); (433, -0x14f33ec892cfdd, -49); (434, -0x190707fde495ed, -51); (435, -0x10d4e08bdfca5, -46); (438, -0x9da1e486b87d5, -49); (439, -0x4b0305e4f4bdf, -47); (444, -0x375ba0cf3b4bb, -47); (445, -0x586bd76ac79a7, -48); (446, -0x4b0305e4f4bdf, -47); (447, -0x8472214f3c78d, -48); (448, -0x2ba91d4e02389, -48); (449, -0x10ca9238c3e5, -41); (450, -0xe5bc6da91eeb9, -49); (451, -0x14f33ec892cfdd, -49); (452, -0x14628f455d1505, -51); (454, -0x5fc881e5dc531, -48); (456, -0x4b0305e4f4bdf, -47); (459, -0x122d7668b3889f, -49); (460, -0x375ba0cf3b4bb, -47)]);
  (236, [(125, -0x162e42fefa39ef, -53); (435, -0x162e42fefa39ef, -53)]);
  (237, []);
  (238, [(100, -0xe2fbaed1dfd19, -50); (101, -0x166c8abda981cb, -50); (103, -0x1ac71790c556c3, -50); (104, -0xa528816de2317, -49); (106, -0x4e47516f27ccf, -48); (107, -0x1bd36df2b150e1, -51); (108, -0x10ae28a1c2c715, -49); (110, -0x18e9b761b07e8d, -49); (112, -0x159eec79e37d4f, -50); (114, -0xd8e1a58830f77, -48); (115, -0x133fb0511a03f7, -50); (117, -0x184b4c71f0a079, -50); (120, -0x151a42f309047, -46); (122, -0x79c4d5d4ffde9, -49); (124, -0x1f757bcb510443, -50); (125, -0xbfba9bf94598d, -51); (127, -0x121a88820626e5, -50); (128, -0x101fc22459fd07, -49); (129, -0x6f75675ca4e33, -48); (130, -0xa16cb168ccc19, -49); (131, -0x1d99d64346f4bd, -50); (132, -0x18c1d1be1b27af, -50); (133, -0x48fe82b02bb01, -47); (134, -0x17a4fe9f30e78d, -50); (135, -0xfc6fed008df31, -49); (138, -0x1f528c895dfc13, -51); (140, -0x17e42c72086d47, -49); (141, -0x97a40da114519, -48); (142, -0xa1176040fa2f5, -49); (143, -0x127b1ff9b37213, -50); (145, -0xd6ba9097969a7, -49); (152, -0x40baf5d658b5f, -49); (153, -0x905c1e7c619db, -48); (156, -0x102e186816e233, -50); (157, -0x157199c0877f0f, -49); (160, -0x11741bf40d09fb, -49); (162, -0x18bca69d91959b, -50); (400, -0x1fb1c56c4472f9, -51); (401, -0xa8f3209149305, -48); (402, -0x1f39088212ee41, -50); (403, -0x19b95081167b4f, -49); (404, -0x692ba4655dd8b, -48); (406, -0x141152ed7b7805, -50); (407, -0x2829d9e661c49, -48); (409, -0x11ac559b814527, -49); (410, -0x1272decfa5aae5, -49); (412, -0xb45ae82123df5, -49); (413, -0x1ebe4069ba8c63, -50); (414, -0x404d146bfc313, -47); (417, -0x1976b4320458ed, -50); (419, -0x48443346c9aad, -47); (422, -0x1112f94b4737c3, -50); (423, -0x18566c5126d7b, -45); (425, -0x1b95b0209418bf, -51); (426, -0x1540a34d108e8b, -50); (427, -0x195243a04e7d4b, -50); (431, -0xd8e1a58830f77, -48); (433, -0x135e26a1f1f011, -49); (434, -0x1a3a21b3556d67, -51); (435, -0x94270f675feff, -49); (438, -0x1f2db13a7b34f5, -51); (439, -0x19b95081167b4f, -49); (443, -0xd8e1a58830f77, -48); (444, -0xf246e32005275, -49); (445, -0x15f7d5d1b549, -42); (446, -0xf1e05b92cd257, -49); (447, -0x77c9601a357a7, -48); (448, -0x1468a2a47412e7, -51); (449, -0x17403125bb8267, -50); (450, -0xe66c4b3964ea5, -49); (451, -0x44a078fc53b7, -43); (452, -0x8beb9532b15e1, -50); (454, -0x19d04ba318a9db, -50); (456, -0x14ac24330abba1, -49); (459, -0x12a457e23c1191, -49); (460, -0x15c52ee7ac1c4d, -50)]);
  (239, []);
  (240, [(100, -0x146c7cf8663fb5, -50); (104, -0x146c7cf8663fb5, -50); (106, -0x11a6b49886f877, -50); (107, -0x183647b190d3f7, -51); (108, -0x146c7cf8663fb5, -50); (112, -0x11a6b49886f877, -50); (115, -0x146c7cf8663fb5, -50); (122, -0x146c7cf8663fb5, -50); (127, -0x146c7cf8663fb5, -50); (129, -0x146c7cf8663fb5, -50); (130, -0x146c7cf8663fb5, -50); (138, -0x1947c099b3523f, -51); (140, -0x146c7cf8663fb5, -50); (142, -0x146c7cf8663fb5, -50); (145, -0x11a6b49886f877, -50); (152, -0x4aaadbc74915f, -49); (156, -0x11a6b49886f877, -50); (162, -0x146c7cf8663fb5, -50); (400, -0x1bf8d8f4d5b8d1, -51); (404, -0x146c7cf8663fb5, -50); (406, -0x1bf8d8f4d5b8d1, -51); (407, -0x8a561f563e61f, -50); (422, -0x11a6b49886f877, -50); (425, -0x146c7cf8663fb5, -50); (427, -0x146c7cf8663fb5, -50); (434, -0xa29fae2cd798d, -50); (438, -0x1bf8d8f4d5b8d1, -51); (448, -0x12c931e2f6fcd7, -52); (449, -0x146c7cf8663fb5, -50); (452, -0x15aa16394d481f, -51)]);
  (241, [(100, -0x17f36a84fcde17, -51); (101, -0x1be1b5012af5cb, -50); (103, -0xd5d8f700bd409, -49); (104, -0x14f179bed8f6d1, -50); (106, -0x5fd55a00e1835, -48); (107, -0x21ec50821c2ab, -47); (112, -0x2d5e7b882d35d, -47); (115, -0x3bd00f745539f, -48); (117, -0x177cba627fb509, -50); (120, -0xab8d24197c93f, -49); (122, -0x98bdfe1ea3a23, -49); (125, -0x6233d6aa6f32b, -51); (127, -0x17249e0ec798a5, -51); (128, -0x30fc25e8933ff, -47); (129, -0x191beca14bae8d, -50); (130, -0xea6349d2f9929, -50); (131, -0x19d69f21dad341, -50); (132, -0x2d5e7b882d35d, -47); (134, -0x102357cfeb1b47, -49); (138, -0xd5d8f700bd409, -49); (141, -0x102357cfeb1b47, -49); (142, -0x1710d6c1fb8c03, -50); (143, -0x85abb245e84b1, -49); (152, -0x17d9f98a93d88b, -51); (156, -0x4bca08d22c45f, -48); (162, -0x16042d8a3d7065, -50); (400, -0x1688b751538ba7, -51); (402, -0x19d69f21dad341, -50); (404, -0x21ec50821c2ab, -47); (406, -0x1be1b5012af5cb, -50); (407, -0x8165cea55e51f, -49); (412, -0x141918559e5f35, -50); (413, -0x102357cfeb1b47, -49); (417, -0x14f179bed8f6d1, -50); (422, -0x4d9a3a8f7dbfd, -48); (425, -0x85abb245e84b1, -49); (426, -0x8dce61e7a4add, -49); (427, -0x119f32eb922fa3, -50); (434, -0x1d7efb44bb6c93, -51); (435, -0x133e652a5e2927, -50); (437, -0x102357cfeb1b47, -49); (438, -0x19d69f21dad341, -50); (444, -0x102357cfeb1b47, -49); (445, -0x1d80e73ff6ef5, -46); (446, -0x1d80e73ff6ef5, -46); (448, -0x102357cfeb1b47, -49); (452, -0x17f36a84fcde17, -51); (454, -0x1710d6c1fb8c03, -50)]);
  (242, [(100, -0x20eeff9f01fe5, -47); (101, -0xbeb27b47e8d6b, -49); (103, -0x1dad4f084303a3, -50); (104, -0xa195dd052f08d, -49); (106, -0x130cf0292fafe9, -50); (107, -0x36aa529099ecf, -48); (108, -0x9e9967879e419, -48); (110, -0x2e166a5fe2f3b, -46); (112, -0x148963b713e5b9, -50); (115, -0xa9a43fe14ae59, -49); (117, -0x1766b186d2bfd7, -50); (120, -0x2c6f89dfbb91, -43); (122, -0x1f8bbde7fe9def, -51); (124, -0x8126835b7c8b5, -48); (125, -0x1a1d45c812f84f, -52); (127, -0x11fa7209e0ec8d, -50); (128, -0x8352c1981ceff, -48); (129, -0x37d429d076683, -47); (130, -0x4af62518b177b, -48); (131, -0x1e853108c9c685, -50); (132, -0x19709ac66be18f, -50); (133, -0x6dcf95008723d, -48); (134, -0x19017e34a275f1, -50); (135, -0x67b506eef799, -44); (138, -0x10ea04660080ab, -50); (141, -0x4e8981c8053e9, -47); (142, -0x130e2072e3c631, -50); (143, -0xabe19619725f7, -49); (145, -0x1c512400ea50a7, -50); (152, -0x75d642e2098e5, -50); (153, -0x14091ec135dcb5, -49); (156, -0x3d7e4a2cd2589, -48); (157, -0x993736d159747, -48); (160, -0x4e8981c8053e9, -47); (162, -0xb41faaef23aa3, -49); (400, -0x115329cbd499c7, -50); (401, -0xb1dce0845be8b, -48); (402, -0x1ebad0fcce647f, -50); (403, -0xb1dce0845be8b, -48); (404, -0x1a4742b7af8031, -50); (406, -0x46007bb6a06b9, -48); (407, -0x164b76a74fea5, -47); (409, -0x81ee5b8d74219, -48); (410, -0x11fe08e1e5ba2b, -49); (412, -0x12a0cfb7f956e7, -50); (413, -0x756ffc167dca3, -48); (414, -0x1228b9e06cb07b, -49); (417, -0x198e5fc6e376d, -46); (419, -0x104f26fcfdfa51, -49); (422, -0x84ec785a67765, -49); (425, -0x1f881499f6b0bf, -51); (426, -0xa12af0f95e34f, -49); (427, -0x1956884f53ab59, -50); (431, -0x186e195fe11d77, -49); (433, -0x81ee5b8d74219, -48); (434, -0x1c91d755bac555, -51); (435, -0x151182bbf0c2b7, -50); (438, -0x1eb2dd48e65447, -51); (444, -0x1b9671805b2bf3, -50); (445, -0x2a210e123ba73, -47); (446, -0x107d4f45d88e4d, -49); (447, -0x1d4c7b11334ac3, -50); (448, -0x12322a5f622099, -51); (449, -0x16f3c74e5366ef, -50); (450, -0xe935861276c7b, -49); (451, -0x1e8fb1b6dceef7, -50); (452, -0x7d965ca508293, -50); (454, -0x18a473cd12dc25, -50); (456, -0x9e9967879e419, -48); (459, -0x11a0afa19e27d1, -49); (460, -0xd0ca2948380ab, -49)]);
  (243, [(100, -0x11a56fcc32d3c3, -50); (101, -0x5ee5ebf207afd, -48); (103, -0x1ff25ef6fe4c7b, -50); (104, -0x157eecd83c9987, -50); (106, -0xa092902340521, -49); (107, -0x1cc348ff58f6cd, -51); (108, -0x13b78c565be5b3, -49); (110, -0xc41a2a21dd9c3, -48); (112, -0xee67f2d97b5e3, -50); (114, -0xb57109a96d2bf, -48); (115, -0x5fbc75da2e78b, -48); (116, -0x5eceb09356db1, -47); (117, -0x27c0287920d41, -47); (120, -0x2e93218a788b, -43); (121, -0x19e629742b5725, -49); (122, -0x1a9fa24e475ba1, -51); (124, -0x177983dfa85913, -50); (125, -0xdea06576c9921, -51); (127, -0x1de282d5ac1687, -51); (128, -0x724f766cd4ed3, -48); (129, -0x66dcd4cf932ef, -48); (130, -0x74f79279667b, -45); (131, -0x171ee8d119f8c1, -50); (132, -0x1553bcf0ed622b, -50); (133, -0x2b7af9c8b8d89, -46); (134, -0x59a01e16866c1, -48); (135, -0x6fbbf558dff35, -48); (138, -0x1edbfc8a64343f, -51); (140, -0x19e629742b5725, -49); (141, -0x1166eeaf77b695, -49); (142, -0xa3d300350d9ff, -49); (143, -0xd8ad6a292d01d, -50); (145, -0x171ee8d119f8c1, -50); (152, -0x109fdc18f19b99, -51); (153, -0x1fa67c012b34d, -46); (156, -0x116ac5d4bdc837, -50); (157, -0xa8d384325c4a9, -48); (160, -0xa76f1e27b37c3, -48); (162, -0x72f3129ac04e5, -48); (400, -0x47b37eb4b9e35, -48); (401, -0x1650c7f4e61325, -49); (402, -0x83b252f533eaf, -48); (403, -0x19e629742b5725, -49); (404, -0x6eb39bcd860fb, -48); (406, -0x12beef6af5fd6b, -50); (407, -0xa7aa43ebdb43f, -50); (409, -0x245036ca2e509, -46); (410, -0x134eb1862a7601, -49); (412, -0x1008d9f5a1bb85, -50); (413, -0x1de46cd8a18db, -46); (414, -0x13cf5dcf0f6b79, -49); (417, -0xa8adbdc90eaa5, -49); (419, -0x120911345716e5, -49); (422, -0x1adda634b4821b, -51); (423, -0x13a0c9f4b6ea29, -49); (425, -0x113ea7ba37fb8f, -50); (426, -0x1f745845c81d83, -51); (427, -0x1679516f570275, -50); (431, -0x19e629742b5725, -49); (433, -0x141e4aa59072c3, -49); (434, -0x19d1b19640efb, -47); (435, -0x95d9f607a3f13, -49); (438, -0x6e2555970f55f, -49); (443, -0xb00ed8f3285ed, -48); (444, -0xcec77bbeefe6f, -49); (445, -0x15b828a9780a4b, -50); (446, -0xf40c7e3c9fa6b, -49); (447, -0x3d7ea8805abfd, -47); (448, -0x154bba342cf29f, -51); (449, -0x2d4a52bc1044f, -47); (450, -0x41eb87a51c135, -47); (451, -0x956af9c4e529b, -48); (452, -0x150eeaae0c0bb3, -51); (454, -0x1816812af43c01, -50); (456, -0x147ba3e5d8051d, -49); (459, -0x138aff9506cbe7, -49); (460, -0x1c7879e84e7cf7, -50)]);
  (244, []);
  (245, [(100, -0x1cbb7fe89fef27, -51); (101, -0x159e76143130ff, -50); (103, -0x71796ee2a1a5d, -48); (104, -0xa01578da21699, -49); (106, -0xd9091199aa823, -50); (107, -0x1776759707bedd, -51); (108, -0x12a22fb8039f6b, -49); (110, -0x1567f817e2e6a9, -49); (112, -0x15ee4b3aad0627, -50); (115, -0x13aa27c26cb099, -50); (117, -0x176f7d9b659f1, -46); (120, -0xa31cc67a5b84f, -49); (122, -0x1081a225dcff27, -50); (124, -0xca45f1926a687, -49); (125, -0x43657868d3b0b, -49); (127, -0x10b4ceb7d853d1, -50); (128, -0x7c2354b30dcef, -48); (129, -0x1a3d5e46e2b537, -50); (130, -0x11d1f13c3db951, -50); (131, -0xd6436eb05673, -45); (132, -0x175f7d86101687, -50); (133, -0x36a7a8233adf3, -47); (134, -0x13c061ee1f329d, -50); (135, -0x636e4c605d097, -48); (138, -0x18c5febdcd5c7f, -51); (141, -0x837d93456ff85, -48); (142, -0x595c73443fd7d, -48); (143, -0x1f3006a2bf288f, -51); (145, -0x1878ee78cd58e9, -50); (152, -0x11c45b35ca50a1, -51); (153, -0x266af5911a8c9, -46); (156, -0x4bea0b9d93571, -48); (160, -0x11d296989da2a9, -49); (162, -0x568e6058b7ff3, -48); (400, -0x102a32f0006c5f, -50); (402, -0x3bdf9e679e0d7, -47); (403, -0x1567f817e2e6a9, -49); (404, -0x1ab5fa649b6103, -50); (406, -0x895f5a6b387c3, -49); (407, -0x4f2759ca6dc0f, -49); (409, -0x44fd2e204fef3, -47); (410, -0x1020c5922cf7bf, -49); (412, -0x1721e0b4f04cb5, -50); (413, -0xf512c72c6fafd, -49); (414, -0xa0289f3f9a185, -48); (417, -0x183248679292ad, -50); (419, -0x44fd2e204fef3, -47); (422, -0x8d772d3859155, -49); (423, -0x1567f817e2e6a9, -49); (425, -0x2300430d816cf, -47); (426, -0x15a8c0b6d068e9, -50); (427, -0x31e5b256671b, -43); (433, -0xf6a277905edc5, -49); (434, -0x60ce72b25c563, -49); (435, -0xb08070f9b427d, -49); (438, -0x1589faed7455ef, -51); (444, -0x1ffae5131f2943, -50); (445, -0x18a39ab81e0db9, -50); (446, -0x1f7aba4ec88d95, -50); (447, -0x1046b70d168395, -49); (448, -0x15098c13d1cbf9, -51); (449, -0xa01578da21699, -49); (450, -0x151849ce59a47d, -50); (452, -0x11e3fd53ff9e71, -51); (454, -0x1721e0b4f04cb5, -50); (456, -0x1567f817e2e6a9, -49); (459, -0x122fefd8e53503, -49); (460, -0xb44b0ae84b71d, -49)]);
  (246, []);
  (247, []);
  (248, []);
  (249, []);
  (250, []);
  (251, []);
  (252, [(100, -0xf988906f18f8f, -50); (101, -0x16a8232cc53c47, -50); (103, -0x1cf7081c000e23, -50); (104, -0x13ee9f108007c7, -50); (106, -0x115a1fbc8f6dcd, -50); (107, -0x1eff15426cc23d, -51); (108, -0x5041e1a9e4f77, -47); (110, -0x5a8933f0fa791, -47); (112, -0x9e2e68583cc79, -49); (114, -0x18d4ca4b943ea5, -49); (115, -0x5b0389369925f, -48); (116, -0x1c85da7dbfcb0f, -49); (117, -0xaca48b6246d79, -49); (120, -0x57d7b81a2af, -40); (121, -0xcf64f6f9acecf, -48); (122, -0xe1f6b2afb5587, -50); (124, -0x7066c82ac0231, -48); (125, -0x3353f7811335b, -49); (127, -0x10138a708961f7, -50); (128, -0x1db302ca2bc5bb, -50); (129, -0xcc3c913667b89, -49); (130, -0x77d61ee500af5, -49); (131, -0x18516f2ce1e565, -50); (132, -0x160a69c3d2bf37, -50); (133, -0x12b517146bfcff, -49); (134, -0x169890c9630109, -50); (135, -0x1cd06b62b0d3c9, -50); (136, -0x1eb857cd156b71, -49); (138, -0x1c89229e4c829, -47); (140, -0x17649972f367fb, -49); (141, -0x23d00a748494b, -46); (142, -0x14bcbe170a2e87, -50); (143, -0x115e7ba57c8b15, -50); (145, -0xe574ec24e5b15, -49); (152, -0x853495119500d, -50); (153, -0x405e881af197b, -47); (155, -0x1a1d6b5e28162b, -49); (156, -0x1e14448e0cec59, -51); (157, -0x162ab09e9b3fd1, -49); (160, -0x11b625bddb3883, -49); (162, -0x6fc5d4d81f40f, -48); (400, -0x1196a1d6e2799d, -50); (401, -0xb3fc9abc61ab5, -48); (402, -0x7d6b6ce2eeff5, -48); (403, -0xbf57707693ae5, -48); (404, -0x3668546c62039, -47); (405, -0xeaab9ce92e3e9, -48); (406, -0x1ec002a87d87e3, -51); (407, -0x1b7af448417acf, -51); (409, -0x11a8889bd2e5f1, -49); (410, -0x49ef8242bafbf, -47); (412, -0x10de8f205f4e0f, -50); (413, -0x1d4ae755aacc5, -46); (414, -0x228f2e35b9ef5, -46); (417, -0x167b9f3efd22c5, -50); (419, -0x1a7f03aeb17b73, -50); (422, -0x101fe2beb6fc4d, -50); (423, -0x1757a2fe48ceed, -49); (425, -0x1f7132dabe183d, -51); (426, -0x9589f3520299d, -49); (427, -0x171b9dd14da311, -50); (431, -0xcf64f6f9acecf, -48); (433, -0x1340df4b134119, -49); (434, -0x185ddcaf1cfd45, -51); (435, -0x4cd5140256d4d, -48); (438, -0x1af782641ac057, -51); (439, -0x6286309fe5ff1, -47); (443, -0x1b22f64dd0277, -45); (444, -0x1db7c958d000ad, -50); (445, -0x546c7efd8d343, -48); (446, -0x1a6c9641d90e43, -50); (447, -0x307f795fc78f9, -47); (448, -0x15c75edda50e6d, -51); (449, -0x1866e5d2688937, -51); (450, -0x30eb596e9a453, -47); (451, -0xa3a3888b802bf, -49); (452, -0x1573a28a0b75c7, -51); (454, -0xc46160d519497, -49); (456, -0x14cb5dd4693a89, -49); (459, -0x1253c379f4aea9, -49); (460, -0xbba8f628ce8b, -45)]);
  (253, [(100, -0x1a738a3f45144b, -51); (101, -0x1ae6d008155cef, -50); (103, -0x6fcde4ff4de23, -48); (104, -0x182107a83615b1, -50); (106, -0x156f219e05a297, -50); (107, -0x1d04e601f67ab9, -51); (108, -0x4a52a43b5c463, -47); (112, -0x1a9aed12424543, -50); (115, -0x1d60b572218c81, -50); (117, -0x1a12309e31061f, -50); (120, -0x1a9aed12424543, -50); (122, -0x6d79492ae38cf, -49); (125, -0x1336d85aac9917, -51); (127, -0x1b38c6bf4453d9, -50); (129, -0x1131c4dee76ded, -49); (130, -0x1a9aed12424543, -50); (131, -0x1131c4dee76ded, -49); (132, -0x1131c4dee76ded, -49); (134, -0x1d60b572218c81, -50); (135, -0x4a52a43b5c463, -47); (138, -0x97e7e530331bf, -49); (142, -0xe2fae702bd0c9, -49); (143, -0x18cc17e20f4033, -50); (145, -0x4a52a43b5c463, -47); (152, -0x187e11df27a395, -53); (153, -0x83115dfc0b895, -48); (156, -0x9648d6373644d, -50); (160, -0x4a52a43b5c463, -47); (162, -0x1d60b572218c81, -50); (400, -0x11568dc9aa051, -46); (406, -0x11999a6f1f32eb, -50); (407, -0xf88607aa508e1, -50); (412, -0xc96d86ffa18a7, -49); (413, -0x4a52a43b5c463, -47); (417, -0x4a52a43b5c463, -47); (419, -0x4a52a43b5c463, -47); (422, -0x111e6e232cd47d, -50); (425, -0x2d6f7b4d217e7, -47); (426, -0x6fcde4ff4de23, -48); (427, -0xf5ca0cfd95fe5, -49); (434, -0x108672b93c9c07, -50); (435, -0x156f219e05a297, -50); (438, -0x189e931ec5491f, -50); (445, -0x34a88e020efe1, -47); (446, -0x1dfe8f1f239b17, -50); (447, -0xf5ca0cfd95fe5, -49); (448, -0xbb5947a0d323f, -50); (449, -0x85226f93e4b63, -49); (450, -0x158368c1d8153f, -50); (451, -0x1d60b572218c81, -50); (452, -0x172c91529a7771, -51); (454, -0x1d60b572218c81, -50); (460, -0x1131c4dee76ded, -49)]);
  (254, []);
  (255, [(100, -0x1202a5464624b1, -51); (104, -0x178e360604b32d, -51); (107, -0x195735827e5ccf, -51); (115, -0xf7163211e75a5, -50); (122, -0x13cba4c2bfce53, -51); (125, -0x8b4834342b15b, -51); (130, -0x12372b80fdbce3, -50); (138, -0x1618d104e669c5, -51); (142, -0x12372b80fdbce3, -50); (143, -0xf7163211e75a5, -50); (152, -0xf7163211e75a5, -50); (156, -0x1ba461c4a4f841, -51); (400, -0xf7163211e75a5, -50); (407, -0x12372b80fdbce3, -50); (412, -0x12372b80fdbce3, -50); (417, -0x1ba461c4a4f841, -51); (425, -0x1ba461c4a4f841, -51); (434, -0x195735827e5ccf, -51); (435, -0xf7163211e75a5, -50); (438, -0x12372b80fdbce3, -50); (452, -0xf7163211e75a5, -50)]);
  (256, [(100, -0x10f151fdecf5a9, -50); (101, -0xb0c7d2af000ed, -49); (103, -0xefb7b7347cac3, -49); (104, -0xa5676f2547c91, -49); (106, -0x8160d98e75747, -49); (107, -0x1e50ed61bee673, -51); (108, -0x154c70812a31f, -45); (110, -0x1b2ffe02ab5ebb, -49); (112, -0xa1ea8bf442193, -49); (114, -0x1b2ffe02ab5ebb, -49); (115, -0x1a8b81d47f0cd5, -50); (117, -0x1671fd78540435, -50); (118, -0x1b2ffe02ab5ebb, -49); (120, -0x16ba69d22cad9, -46); (122, -0x92f0cf4cd0173, -49); (124, -0x1020ecae5a8b6f, -49); (125, -0x107a5b6eb3595f, -52); (127, -0x137f921fcf4c6b, -50); (128, -0x211f42f3e327d, -46); (129, -0x1c04ec7a73b865, -50); (130, -0x130c4fbb5bcaa7, -50); (131, -0x1afcb6f55e6083, -50); (132, -0x18554db68ca64b, -50); (133, -0xb075e7bef7dd3, -48); (134, -0x16fd7a141cd6ab, -50); (135, -0x8202c373ef2d, -44); (138, -0x8e0b870695cff, -49); (140, -0x1b2ffe02ab5ebb, -49); (141, -0xa029d82106b5d, -48); (142, -0xc2b366b1ee37b, -49); (143, -0x13a59618d13ae9, -50); (145, -0x1bbb8e35724b07, -50); (152, -0x8e74d7240ba6b, -50); (153, -0x40ce2dd7fcf35, -47); (156, -0x311968d91a9f3, -48); (157, -0x6734674aeeec7, -47); (160, -0x128d70355a5b0d, -49); (162, -0x108d1d62f7d73d, -49); (400, -0x13a75316745ee9, -50); (401, -0xbcd4e41b30d5d, -48); (402, -0x47c0064b9deb7, -47); (404, -0xe0bb33d212f91, -49); (406, -0xc7412d20c0339, -50); (407, -0x35b63fdbd97bd, -48); (409, -0x44d3901f249f1, -47); (410, -0x1519325d8f730f, -49); (412, -0xea8613634361d, -50); (413, -0x211f42f3e327d, -46); (414, -0x9842582e3e4ff, -48); (417, -0x18554db68ca64b, -50); (419, -0xd4e1a58f7b11b, -49); (422, -0x47faa5967ef07, -48); (423, -0x186a35a2cc177d, -49); (425, -0x10a53e93bbff0f, -50); (426, -0x5025267e903b, -44); (427, -0xdfcdbc8cb761d, -49); (433, -0x5fdfd70eb6b45, -47); (434, -0x1a68328ce8bb05, -51); (435, -0xa6abd24be5aeb, -49); (438, -0x1166a7e5901a79, -50); (439, -0x186a35a2cc177d, -49); (443, -0x6734674aeeec7, -47); (444, -0x10542ad1f54a5, -45); (445, -0x1259d2499d3d6f, -50); (446, -0x1d54378b756697, -50); (447, -0xdd88f53c4c999, -49); (448, -0x142c5b1b669cf1, -51); (449, -0x9e4d26afec313, -49); (450, -0x1e25d66eb7bad3, -50); (451, -0x1a5dc6d9b01e83, -50); (452, -0xccefa81b33cd1, -50); (454, -0xe1809c0c913c9, -49); (456, -0x2cc88a299721d, -46); (459, -0x9c97d92813629, -48); (460, -0x1b8c284cecceed, -50)]);
  (257, [(100, -0x13c43de946885f, -50); (101, -0xca7e754828b6d, -49); (103, -0xca7e754828b6d, -49); (104, -0x5a281924973e7, -48); (106, -0x10fe7589674121, -50); (107, -0x12dfbe2b09b38d, -50); (112, -0x91285d53d476d, -49); (115, -0x29d5a814b3ac3, -47); (120, -0xca7e754828b6d, -49); (122, -0x10c02a16e1f83f, -51); (125, -0x1200d15e7bdac3, -51); (127, -0x1841bd9a06a925, -51); (128, -0xca7e754828b6d, -49); (130, -0x209981d78b9bd, -48); (131, -0xca7e754828b6d, -49); (132, -0xca7e754828b6d, -49); (135, -0xca7e754828b6d, -49); (138, -0x9e941913c9e7f, -50); (142, -0xca7e754828b6d, -49); (143, -0x12dfbe2b09b38d, -50); (152, -0x3d7d0d2a6d1e7, -48); (156, -0xca7e754828b6d, -49); (160, -0xca7e754828b6d, -49); (400, -0x198a1f543879c5, -51); (406, -0x5a281924973e7, -48); (407, -0x1c715a530ff3c5, -51); (412, -0x29d5a814b3ac3, -47); (417, -0x5a281924973e7, -48); (422, -0x1019f5cb2a6c5, -46); (425, -0x15f49157e00db3, -51); (426, -0x5a281924973e7, -48); (427, -0x12dfbe2b09b38d, -50); (434, -0x13c43de946885f, -50); (435, -0x461cc7f5e2011, -48); (438, -0x15f49157e00db3, -51); (444, -0x29d5a814b3ac3, -47); (447, -0xca7e754828b6d, -49); (448, -0x162e42fefa39ef, -51); (449, -0x3622ce980af51, -48); (452, -0x1aa85ad6964a23, -51); (460, -0x91285d53d476d, -49)]);
  (258, []);
  (259, []);
  (260, [(100, -0x126a73ca4a9bb9, -50); (101, -0xd6da7c27b74d3, -49); (103, -0x103370225abc11, -49); (104, -0xd6da7c27b74d3, -49); (106, -0x156774578ecced, -51); (107, -0x1610a6cbe705cb, -51); (112, -0x17310766dacd97, -50); (115, -0x1337f068b3b5d9, -50); (117, -0x76845f9358c39, -48); (120, -0x8dfb1c838b89b, -49); (122, -0x826753cc585e9, -49); (124, -0x19f6cfc6ba14d5, -50); (125, -0x1340fd19e83467, -51); (127, -0x5d93fd62186f3, -49); (128, -0x103370225abc11, -49); (129, -0xd6da7c27b74d3, -49); (130, -0x1312b2d96a531, -46); (131, -0x103370225abc11, -49); (132, -0xd6da7c27b74d3, -49); (133, -0x103370225abc11, -49); (134, -0x4b303320be335, -48); (135, -0x103370225abc11, -49); (138, -0x16c9189b120ecf, -51); (141, -0x103370225abc11, -49); (142, -0x5e73ac1d7bda7, -48); (143, -0x1c75159a1b7111, -51); (145, -0x103370225abc11, -49); (152, -0xa69c699e47d99, -50); (156, -0x149fc541b31e8b, -50); (160, -0x126a73ca4a9bb9, -50); (162, -0x76845f9358c39, -48); (400, -0x103acaa307ddc9, -50); (402, -0x5e73ac1d7bda7, -48); (404, -0x5e73ac1d7bda7, -48); (406, -0x361c8866af125, -48); (407, -0x9541d877e6961, -50); (409, -0x103370225abc11, -49); (410, -0x19f6cfc6ba14d5, -50); (412, -0x17310766dacd97, -50); (413, -0x76845f9358c39, -48); (417, -0x16245e2f1cb1f9, -50); (422, -0x149fc541b31e8b, -50); (425, -0x80322342822cb, -49); (426, -0x167654e64ba8e3, -50); (427, -0x12aa79206ce275, -50); (434, -0xd16aecac34e3b, -50); (435, -0x167654e64ba8e3, -50); (438, -0x10fe2f78a41a45, -51); (444, -0x302b0e4a2f44d, -47); (445, -0x16245e2f1cb1f9, -50); (446, -0x62790e64a3863, -48); (447, -0x76845f9358c39, -48); (448, -0x193c1d462af021, -50); (449, -0x76845f9358c39, -48); (450, -0x76845f9358c39, -48); (451, -0x76845f9358c39, -48); (452, -0xa191aaaacc5ff, -50); (454, -0x17310766dacd97, -50); (459, -0x1c01e5a60a375f, -50); (460, -0x12aa79206ce275, -50)]);
  (261, []);
  (262, [(100, -0x1e471a78c0573b, -51); (101, -0x37d83dbfa427d, -47); (103, -0x70ff091ec8703, -48); (104, -0x186efe1488e11d, -50); (106, -0xa36ed092c90b5, -49); (107, -0x116f150e00c4b9, -50); (110, -0x574c9ebef528d, -47); (112, -0xbbcebde9b4db7, -49); (115, -0x13e0e22c6f2563, -50); (117, -0x70ff091ec8703, -48); (120, -0x5c54fc7c86e53, -48); (122, -0x1d4faf0af71f69, -51); (124, -0x89c1da067fa77, -48); (125, -0xf650cbf701717, -51); (127, -0x1319470d5647cf, -50); (128, -0x129b1f70bf988d, -49); (129, -0x1c6c49a428af95, -50); (130, -0xb2b484d211c9f, -49); (131, -0x123dc630780633, -49); (132, -0xdd8cb91ccc571, -49); (133, -0x10dae200886295, -49); (134, -0x1aa7d9d6135347, -50); (135, -0x845fa9503ada5, -48); (138, -0x4f9917872fffd, -48); (141, -0x9d0553033d4e9, -48); (142, -0x16db0c9134053d, -50); (143, -0x15f329468c82bd, -50); (145, -0x208f2ddffd777, -46); (152, -0x8579563cfb9b, -46); (153, -0x116e2d11120971, -49); (156, -0x146ac5ab06af03, -50); (160, -0x9d0553033d4e9, -48); (162, -0x480929f46f5a7, -48); (400, -0x4669219eff0a9, -48); (402, -0x1ce4e5c1e15b61, -50); (403, -0x574c9ebef528d, -47); (404, -0x58d16332a9f37, -48); (406, -0x43867716e7c55, -48); (407, -0x1d776516d3b421, -51); (409, -0x116e2d11120971, -49); (410, -0x1f78b81542bd0f, -50); (412, -0x15f329468c82bd, -50); (413, -0xee4b2c00f1819, -49); (414, -0x574c9ebef528d, -47); (417, -0x1a1f1d62021423, -50); (419, -0x1c9ad754701e5f, -50); (422, -0x11e7b12bb97085, -50); (425, -0x1ff321ddefaefd, -51); (426, -0x4cac808167517, -48); (427, -0xc4cec0645a65d, -49); (431, -0x574c9ebef528d, -47); (433, -0x129b1f70bf988d, -49); (434, -0x7561c4c2cb0bf, -49); (435, -0x14127109501c59, -50); (438, -0x43ddc806b5a89, -48); (444, -0xee4b2c00f1819, -49); (445, -0x146ac5ab06af03, -50); (446, -0xf2910fa17b7ab, -49); (447, -0x1f78b81542bd0f, -50); (448, -0xc156c2604639b, -51); (449, -0x159cb246df74a9, -50); (450, -0x9a858f1275a8f, -50); (451, -0x6d16ce0c55877, -48); (452, -0x44b666a2a1b99, -49); (454, -0x161c964c99f823, -50); (456, -0x986afa7ef017b, -48); (459, -0x89c1da067fa77, -48); (460, -0x1b56e965b36aef, -50)]);
  (263, []);
  (300, [(200, -0x9be9c55aee3a9, -54); (300, -0xfa89fed044701, -51)]);
  (301, [(201, -0x51ecbe7a7ffc7, -51); (301, -0x17f9bf22178c63, -53)]);
  (302, []);
  (303, []);
  (304, [(204, -0x12eddd10c060d5, -57); (304, -0x1a874528b97931, -51)]);
  (305, []);
  (306, [(206, -0x1729340e48b889, -54); (306, -0x13120f9adfd4b1, -52)]);
  (307, [(207, -0x1e7153989fcacd, -59); (307, -0x10dd6299bfc653, -50)]);
  (308, []);
  (309, []);
  (310, [(210, 0, 0)]);
  (311, []);
  (312, [(212, 0, 0)]);
  (313, []);
  (314, []);
  (315, [(215, -0x167c34e524a151, -53); (315, -0x15e10d2a5c4c9f, -53)]);
  (316, [(216, -0x162e42fefa39ef, -53); (316, -0x162e42fefa39ef, -53)]);
  (317, [(217, -0x11f414b4f59f31, -55); (317, -0x208975b3f4b2f, -48)]);
  (318, [(218, 0, 0)]);
  (319, []);
  (320, [(220, -0x1387fb574175fd, -53); (320, -0x644740852b29b, -51)]);
  (321, [(221, -0x162e42fefa39ef, -53); (321, -0x162e42fefa39ef, -53)]);
  (322, [(222, -0x1fd49f6ae5a2b, -51); (322, -0x1836bf9199bcbb, -52)]);
  (323, []);
  (324, [(224, -0x14aa7be583007d, -58); (324, -0x7d37c58dd25d5, -49)]);
  (325, [(225, -0x933b993d889, -46); (325, -0x101579f66a5b2f, -51)]);
  (326, []);
  (327, [(227, -0x4588d70a45923, -55); (327, -0x1b32a253bdb1a5, -51)]);
  (328, [(228, -0x32d0e44a5ab83, -55); (328, -0x1dab9960e7f529, -51)]);
  (329, [(229, -0x1b869ca19184a3, -54); (329, -0x10d156eac8c2bd, -52)]);
  (330, [(230, -0x1a95b40ee720cd, -54); (330, -0x8a1e9892f8ab9, -51)]);
  (331, [(231, -0x87eda5b97dd59, -51); (331, -0x36500f95c1371, -51)]);
  (332, [(232, -0x139cfa363e7253, -53); (332, -0x18f8eb85ba995d, -53)]);
  (333, [(233, -0x706b2e5765e13, -52); (333, -0x108d487f4a19d1, -52)]);
  (334, [(234, 0, 0)]);
  (335, [(235, -0x12d7608cb63487, -53); (335, -0x19e8ddaf4c1607, -53)]);
  (336, []);
  (337, []);
  (338, [(238, -0xa0a3c84b35cfb, -61); (338, -0xd68ef4106e581, -49)]);
  (339, []);
  (340, [(240, 0, 0)]);
  (341, []);
  (342, [(242, -0x13d1551a49e981, -57); (342, -0x68ac5b772e9eb, -49)]);
  (343, [(243, -0x1404a9ec28774f, -57); (343, -0x1a16ded74c7ff1, -51)]);
  (344, []);
  (345, [(245, 0, 0)]);
  (346, []);
  (347, []);
  (348, []);
  (349, []);
  (350, []);
  (351, []);
  (352, [(252, -0xe08f90ec9635b, -57); (352, -0x1ce22f37e746e3, -51)]);
  (353, []);
  (354, []);
  (355, [(255, 0, 0)]);
  (356, [(256, -0xbb69361725b9d, -59); (356, -0x14aac3ab35b6ed, -50)]);
  (357, []);
  (358, []);
  (359, []);
  (360, [(260, 0, 0)]);
  (361, []);
  (362, [(262, -0x89fa62bcb0b81, -53); (362, -0x171652a4d4cd69, -52)]);
  (363, []);
  (400, [(100, -0x1387714db43707, -50); (101, -0x1d10ca0d79a0f9, -50); (103, -0x40c0ff0b49da1, -47); (104, -0x17c0ac3579d1e5, -50); (106, -0x124cd0b49cb4d, -46); (107, -0x909abff580ba1, -49); (108, -0x140fd075311859, -49); (110, -0x18283ba7761bf1, -49); (112, -0x2da7defc0319d, -47); (115, -0xd355b1eb1efa3, -49); (116, -0x1aee040755632f, -49); (117, -0x176c0a468b9d53, -50); (120, -0x18a909f9f42979, -50); (122, -0x1d1f6119847419, -51); (124, -0x10cabc9df733a3, -49); (125, -0x18578d71f0cf19, -52); (127, -0x100894165ebd2f, -50); (128, -0x427e1f2bcc97b, -47); (129, -0x6bfdea61248d7, -48); (130, -0x9371d1d01ecc5, -49); (131, -0x106f8a16e6e11f, -49); (132, -0x17c517f895da4d, -50); (133, -0x9567622a0ba5d, -48); (134, -0x1b27fd0dff9429, -50); (135, -0x192214d18d7991, -50); (138, -0x13a2dac5714755, -50); (141, -0x15ccc2fc89001b, -49); (142, -0x5bc6bb813bf77, -48); (143, -0x513bd46255eeb, -48); (145, -0xf14cbf90751df, -49); (152, -0xb6ef6e39f6333, -50); (153, -0x90bc8e051f877, -48); (156, -0x1155ea6b3b6773, -50); (160, -0x1237617d43bc1b, -49); (162, -0x1b9aa4b6d24709, -50); (400, -0xdcb5c40dbea71, -50); (401, -0x15f5be58207b9, -45); (402, -0xc1489a7ae24b5, -49); (403, -0x9186de13ec53b, -48); (404, -0x67674b8c109db, -48); (406, -0x10845346afe6d7, -50); (407, -0x1aedf52bfaaafb, -51); (409, -0x4517ad297138f, -47); (410, -0x905b06bec88d5, -48); (412, -0x137cc185f0a9a1, -50); (413, -0x167b20ad6655ef, -50); (414, -0x1043a9e935b57, -45); (417, -0x9a65d9887d9bf, -49); (419, -0x19dd8ebee1f269, -50); (422, -0x8290ad3ab9d29, -49); (423, -0x4d17015fc54a5, -47); (425, -0xa03981537e6b, -46); (426, -0x1b15986fb0cf31, -51); (427, -0x12e34efdb88c79, -50); (431, -0x198b1fd765bf9, -45); (433, -0x905b06bec88d5, -48); (434, -0x70db7b808a7c9, -49); (435, -0xe1af0da6a53d5, -50); (438, -0x21eed55c175c1, -47); (439, -0x5a2425a2a889b, -47); (443, -0xc5dc35bffe167, -48); (444, -0x1b3b8b23abba23, -50); (445, -0x15e76a82048b0f, -50); (446, -0x1485885898f629, -50); (447, -0x1afa86aa39decd, -50); (448, -0x14b99aa021b84b, -51); (449, -0x1dbfbed614fb81, -51); (450, -0x2d64b7ac7dc51, -47); (451, -0x17f5dd60d8fa2f, -50); (452, -0x409a4ffb7eaf9, -49); (454, -0x9cf8f10ea4657, -49); (456, -0x10b4ad90b44d4f, -49); (459, -0xcd3e8bd6630d1, -49); (460, -0x14868439dafc1f, -50); (463, -0x1aee040755632f, -49)]);
  (401, [(100, -0x17e37147d3a23f, -50); (101, -0x1982a3869f9bc3, -50); (104, -0x1c486be67ee301, -50); (106, -0x1982a3869f9bc3, -50); (107, -0x1205e9d0e61cd9, -50); (112, -0x1982a3869f9bc3, -50); (115, -0x17e37147d3a23f, -50); (117, -0x1982a3869f9bc3, -50); (120, -0x1c486be67ee301, -50); (122, -0x898a53380e305, -49); (124, -0x1c486be67ee301, -50); (125, -0x85c5724a48d1f, -49); (127, -0x1257e0881513c3, -50); (129, -0x43ccd816068d1, -48); (130, -0x147fcf3af24c6b, -50); (132, -0x17e37147d3a23f, -50); (134, -0x1c486be67ee301, -50); (138, -0xf40217106d59b, -50); (142, -0x147fcf3af24c6b, -50); (143, -0x16bcdb26c05485, -50); (145, -0x1982a3869f9bc3, -50); (152, -0x154fe1c7b08b39, -51); (156, -0x1c486be67ee301, -50); (162, -0x1c486be67ee301, -50); (400, -0x1e32f814fa4173, -51); (401, -0x147fcf3af24c6b, -50); (402, -0x57616da20dfed, -48); (406, -0x1257e0881513c3, -50); (407, -0x1a4ad2960171bf, -51); (409, -0x1c486be67ee301, -50); (412, -0x16bcdb26c05485, -50); (413, -0xd0e662b2cfe2f, -50); (414, -0x17e37147d3a23f, -50); (417, -0x16bcdb26c05485, -50); (419, -0x1982a3869f9bc3, -50); (422, -0x108150e37c896b, -50); (425, -0xf40217106d59b, -50); (426, -0x1ed095d51038cf, -51); (427, -0x4ac3e82afd1d7, -48); (434, -0xa772b7b9525bb, -50); (435, -0x1881d31987c81d, -51); (438, -0x898a53380e305, -49); (444, -0x16bcdb26c05485, -50); (445, -0x4df9daa4a185f, -48); (446, -0x1c486be67ee301, -50); (448, -0x85c5724a48d1f, -49); (449, -0x17e37147d3a23f, -50); (450, -0x1982a3869f9bc3, -50); (452, -0x7c363c72d031b, -51); (454, -0x178c78c4ae0c2d, -51); (459, -0x1257e0881513c3, -50); (460, -0x1c486be67ee301, -50)]);
  (402, [(100, -0x9278388e90777, -49); (101, -0xdcae67f2cf97d, -49); (103, -0x13356c0d804b85, -49); (104, -0x1840e6dd4bc38d, -50); (106, -0x14ea11a8237f2f, -50); (107, -0x26c586e9454fd, -47); (108, -0x526140f5bfbc9, -47); (112, -0x18073247bdae61, -50); (115, -0x18e13a8118b4cf, -50); (117, -0xda9db4dc1bd09, -49); (120, -0xd6d8d3ee56723, -49); (122, -0x270d1483252c5, -47); (124, -0x8e943eec853f3, -48); (125, -0x132b3ba1409505, -51); (127, -0xd2ab2ec5e63b3, -50); (128, -0x1f992e9f2042a1, -50); (129, -0x12450133d51d9, -46); (130, -0x138faed7d6c411, -50); (132, -0x179cb60032db3d, -50); (133, -0x1102eebe2aab23, -49); (134, -0x1ca5e17bf7044f, -50); (135, -0x1f992e9f2042a1, -50); (138, -0x14e3a61d8816c5, -50); (141, -0x13356c0d804b85, -49); (142, -0x186e6ba095baa1, -50); (143, -0x156518c46c2529, -50); (145, -0x7a88edbdd001d, -48); (152, -0x192e395c9d476b, -51); (153, -0x932e9770d2761, -48); (156, -0x166355c1459817, -50); (160, -0x1f992e9f2042a1, -50); (162, -0x198ab71f09d07, -46); (400, -0xd74cd3bfc7b2b, -50); (401, -0x13356c0d804b85, -49); (402, -0x1bcd64bc032a09, -51); (403, -0x526140f5bfbc9, -47); (404, -0x171a50bc3875d3, -50); (405, -0x13356c0d804b85, -49); (406, -0x8a1d45105995, -45); (407, -0x1a39bbf4bab5b1, -51); (409, -0x1eee1e6547181f, -50); (410, -0x1f992e9f2042a1, -50); (412, -0x92c9326644b5b, -49); (413, -0xde8ee1c2e0709, -50); (414, -0x8e943eec853f3, -48); (417, -0x42858a55ef09, -44); (419, -0xa964afd61fb8d, -49); (422, -0x12defbc8d35ca5, -50); (423, -0x7a88edbdd001d, -48); (425, -0x11d71717dba9d9, -51); (426, -0x128dac4218898d, -51); (427, -0xf80e2bb71e411, -50); (433, -0x667d9c8f1ac47, -48); (434, -0x806d6350cfbb, -45); (435, -0x1bfa81652af7e1, -51); (438, -0x105f28e3ce5dcf, -50); (439, -0x10b401e7a9a3d9, -49); (444, -0x92c9326644b5b, -49); (445, -0x4a7d41923377b, -48); (446, -0xdcae67f2cf97d, -49); (447, -0x1eee1e6547181f, -50); (448, -0xecbc0edded3f7, -50); (449, -0xa82146c4df2a7, -49); (450, -0x18322af1789d27, -50); (451, -0x1aa3bd17fe3d73, -50); (452, -0x1d6abcbc80d3ef, -52); (454, -0xe74dd821a262f, -50); (459, -0x8bc5d21bcc819, -49); (460, -0x9dcef0820a7d7, -49); (461, -0x13356c0d804b85, -49); (463, -0x526140f5bfbc9, -47)]);
  (403, [(100, -0x121ca6eebe422f, -50); (103, -0x67950e692b631, -48); (106, -0x111b4e5cf4573f, -50); (107, -0x3e8b0612c84a7, -48); (115, -0xb8fbd9d35c8c3, -49); (120, -0xb8fbd9d35c8c3, -49); (122, -0xac0247dcfcc01, -49); (125, -0xa7eb682826069, -50); (127, -0x111b4e5cf4573f, -50); (130, -0x67950e692b631, -48); (132, -0x67950e692b631, -48); (138, -0x121ca6eebe422f, -50); (143, -0xb8fbd9d35c8c3, -49); (152, -0x13e116bcd39e7d, -51); (156, -0xb8fbd9d35c8c3, -49); (160, -0x67950e692b631, -48); (162, -0x67950e692b631, -48); (400, -0xe5585fd151001, -50); (402, -0xb8fbd9d35c8c3, -49); (403, -0x1459b2da8c4a49, -50); (404, -0x67950e692b631, -48); (406, -0xe5585fd151001, -50); (407, -0x132bbb41075e97, -51); (412, -0xf10387da434b5, -50); (413, -0x111b4e5cf4573f, -50); (417, -0xac0247dcfcc01, -49); (419, -0x121ca6eebe422f, -50); (422, -0xac0247dcfcc01, -49); (425, -0x132bbb41075e97, -51); (426, -0x591ecfe58cfdf, -49); (427, -0x111b4e5cf4573f, -50); (434, -0x1eadbd1dbdf5e1, -51); (435, -0xe5585fd151001, -50); (438, -0xf10387da434b5, -50); (444, -0xb8fbd9d35c8c3, -49); (445, -0x3e8b0612c84a7, -48); (447, -0x67950e692b631, -48); (448, -0x171f7b3a6b9187, -51); (449, -0xac0247dcfcc01, -49); (450, -0x67950e692b631, -48); (452, -0x1b8659d2952ce5, -52); (454, -0x3e8b0612c84a7, -48); (460, -0x121ca6eebe422f, -50)]);
  (404, [(100, -0x16335c9c884ad5, -50); (101, -0x21b3d18e4fde3, -46); (103, -0x90de0e2d62b21, -48); (104, -0x61a6c6328b03f, -48); (106, -0xc69ad56c19023, -49); (107, -0x15f78c94a381e3, -50); (108, -0x130c66167d8f79, -49); (110, -0x16446e557b411f, -49); (112, -0x61a6c6328b03f, -48); (115, -0xd7430d427f26d, -49); (117, -0xcc7069709227d, -49); (120, -0x632fd7bb7ddcb, -48); (122, -0x14ce3e2f76bd07, -50); (124, -0x12af0cd635fd1f, -49); (125, -0x19db792cebff73, -53); (127, -0x136031781db96d, -50); (128, -0x16446e557b411f, -49); (129, -0x1c2840ce914fb3, -50); (130, -0x141fd78c2f5a4f, -50); (131, -0x1b6d8e4e022b, -42); (132, -0x19a00450c2fee3, -50); (133, -0x16446e557b411f, -49); (134, -0x10469db69e483b, -49); (135, -0x8d4c0f346f5ed, -48); (138, -0x151a56a393ddd1, -50); (141, -0x16446e557b411f, -49); (142, -0xd2e4399a76153, -49); (143, -0xd237c16776ea3, -49); (145, -0x21b3d18e4fde3, -46); (152, -0x179f47a0da43a3, -51); (153, -0x29c3144b173b, -42); (156, -0x1f2367e3c334c5, -51); (160, -0x16446e557b411f, -49); (162, -0x1fa8bbaeffbba5, -50); (400, -0x8b235ca445a5b, -49); (401, -0x16446e557b411f, -49); (402, -0x753b5bbe9275b, -48); (404, -0x1e3810125cf353, -51); (406, -0x142222a80e20cb, -50); (407, -0x1f8cc36babe8b1, -51); (409, -0x11df73b6d0005d, -49); (410, -0x16446e557b411f, -49); (412, -0x85ba7e89af211, -49); (413, -0x16204ad4e69239, -50); (414, -0x1eabf2cb9a1e09, -50); (417, -0xa7be8be6855eb, -49); (419, -0x1b3630e8359a2d, -50); (422, -0x12d0d448f3fac9, -50); (423, -0x12af0cd635fd1f, -49); (425, -0x11b24e333aac1f, -51); (426, -0x1cad33dbff1d7d, -51); (427, -0xb0c61a592f25f, -49); (433, -0x10b8dd95bcb2a3, -49); (434, -0x1c420d4ef6d0e9, -51); (435, -0x44447d3c50caf, -48); (438, -0x14a64a343f7f59, -50); (439, -0x16446e557b411f, -49); (444, -0x6c3a30851b433, -48); (445, -0x582778e406bcd, -48); (446, -0x1099d364fca141, -49); (447, -0xa08f88312d05f, -48); (448, -0xeee004c9b5cbd, -50); (449, -0x1ffe1dac0da847, -50); (450, -0x10469db69e483b, -49); (451, -0x21b3d18e4fde3, -46); (452, -0x11f078c53ed0af, -51); (454, -0x1776934231ef09, -50); (456, -0x90de0e2d62b21, -48); (459, -0xda8bfe9fceb91, -49); (460, -0x1eee092e7096f1, -50); (463, -0xa08f88312d05f, -48)]);
  (405, [(125, -0x1353ca9a5e1205, -51); (127, -0x1019f5cb2a6c5, -46); (400, -0xbb4fb2c7f2b8d, -50); (402, -0x2a39942daf775, -48); (406, -0x1019f5cb2a6c5, -46); (409, -0x1aa85ad6964a23, -51); (412, -0x1019f5cb2a6c5, -46); (413, -0x8ef32cc9fe44f, -50); (417, -0xbb4fb2c7f2b8d, -50); (425, -0x1aa85ad6964a23, -51); (426, -0x2a39942daf775, -48); (427, -0x1019f5cb2a6c5, -46); (435, -0x1aa85ad6964a23, -51); (438, -0x1019f5cb2a6c5, -46); (452, -0x162e42fefa39ef, -52); (454, -0xbb4fb2c7f2b8d, -50); (459, -0x1aa85ad6964a23, -51); (460, -0x1019f5cb2a6c5, -46)]);
  (406, [(100, -0xeffe2d733be31, -50); (101, -0x17013dc407b1ff, -50); (103, -0xdada9cbf0baa3, -49); (104, -0x120e4f894f0385, -50); (106, -0x13b3f314648f3f, -50); (107, -0x3dd098e846d8b, -48); (108, -0x8f2084821bd0b, -48); (112, -0x4f39e62f3d8c1, -48); (114, -0xc14b807dbf389, -48); (115, -0x17e30186433ec7, -50); (117, -0x52025ef1eaf8f, -48); (120, -0x13e54a8ca3dd5d, -50); (122, -0x3fccfe4a087a3, -48); (124, -0x1d91495ca0b981, -50); (125, -0x15326fdc2df41d, -52); (127, -0x1ac2d1baa5736d, -51); (128, -0x41c2f9fca2b1, -43); (129, -0x18fa88867e3179, -50); (130, -0x1a05d1fa87dbad, -51); (131, -0x167921fd318a9b, -50); (132, -0x1456bdff687e87, -50); (133, -0x558e9ebf627f5, -47); (134, -0x1538063640ade9, -50); (135, -0x1ca88f1f7e77e1, -50); (138, -0x1dc50b311e1c53, -51); (140, -0x15f6f2c06246b1, -49); (141, -0x94eefa7fcac4b, -48); (142, -0x14a7a6e8e902dd, -50); (143, -0x1133d859a1ab0b, -50); (145, -0x4b1e15cace665, -47); (152, -0x1e5e287817dc2b, -52); (153, -0x101ebf9e12a135, -49); (156, -0x1b0de9b3c0f64f, -51); (157, -0x198c543fa78ab1, -49); (160, -0x1aef386f972e5, -45); (162, -0x38ce59af7d115, -47); (400, -0x42570055fbbf, -44); (401, -0xa93acd07e24f7, -48); (402, -0x1c42e0b0afc9ed, -50); (403, -0x1421ceb15438a9, -49); (404, -0x1a29a04312b253, -50); (405, -0x198c543fa78ab1, -49); (406, -0x17e14cfb426391, -50); (407, -0xbed1c059dc8fb, -50); (409, -0x13523591ee3be7, -49); (410, -0x198c543fa78ab1, -49); (412, -0x141563237c5509, -50); (413, -0x1a7058b4946441, -50); (414, -0x1ab688a9c7e245, -50); (417, -0x2bc941ba99327, -47); (419, -0x74a0e78f53a39, -48); (422, -0x43bf118a81, -36); (423, -0x5361b329ed0a9, -47); (425, -0xf1604b5d8538b, -50); (426, -0xa4ce6395ca305, -49); (427, -0xb140fa49545f3, -49); (431, -0x1aef386f972e5, -45); (433, -0x53c59f42e8d5b, -47); (434, -0x6326a28db15f9, -49); (435, -0xa5af9eaa47549, -49); (438, -0xdcc37426ab69, -46); (439, -0x16237f81b7607d, -49); (443, -0x1aef386f972e5, -45); (444, -0x1dcde55e8c5bef, -50); (445, -0x1aa8c9e6228605, -50); (446, -0xe695632a682e1, -49); (447, -0x7533fa78fc8b9, -48); (448, -0x18f550838419d9, -50); (449, -0x49bff6ab8e37, -43); (450, -0x1fa04d8bdba4af, -50); (451, -0x87bce930b395f, -48); (452, -0x14484b3b5ff1d7, -51); (454, -0x15ff3c82b621cf, -50); (456, -0x4b1e15cace665, -47); (459, -0x112f1e9285ca1f, -49); (460, -0x4c710f06b09d9, -47)]);
  (407, [(100, -0xcfd666216dc31, -50); (101, -0xa5c594bb9df0b, -49); (103, -0x1ceeba07e80893, -50); (104, -0xc487b1ce5f05, -45); (106, -0x176afa9631f081, -50); (107, -0x1b1360dd2d4009, -51); (108, -0xed4647ff5c903, -49); (110, -0x178020e09ad729, -49); (112, -0x373d50ee721ed, -47); (114, -0x1cc7536650c613, -49); (115, -0xa980b948ad98d, -49); (117, -0x7a0ff29a2c91d, -48); (120, -0xaf72ed764e159, -49); (122, -0x11c96ab0ec400f, -50); (124, -0x11d13d183ee59, -45); (125, -0xe3bbb980a9c41, -50); (127, -0x1399ce1dfc284d, -50); (128, -0x4a37f3bebec0d, -47); (129, -0xe86c4e37a4029, -49); (130, -0x1926d8099b44f9, -50); (131, -0x129a79f90aa0ef, -49); (132, -0x1e439b48367961, -50); (133, -0x8b669f6703371, -48); (134, -0x600eb5c9be9d5, -48); (135, -0xdf1864d1921bb, -49); (138, -0x133928b0d4bf1d, -50); (141, -0x171cb875d22635, -49); (142, -0x6f5db86f65899, -48); (143, -0xb9abc0906d9ef, -49); (145, -0x1af0fcb3d68def, -50); (152, -0xc6bee5a43764b, -51); (153, -0x1f2599ffb9df53, -50); (155, -0x1681f3e6dc5917, -49); (156, -0xa8452c567f661, -49); (157, -0x95f3d3f9a62f5, -48); (160, -0x8a3d17b2a0f23, -48); (162, -0xd05842a5f17bd, -49); (400, -0xb65fc28abd67f, -50); (401, -0x563a24ab08509, -47); (402, -0x1adb5e240d7d39, -50); (404, -0xf5d698a1bcecf, -49); (405, -0x1cc7536650c613, -49); (406, -0x16d3bb867e14f5, -50); (407, -0x5580f0dacd153, -49); (409, -0x3d3f4bc9a0f79, -47); (410, -0x9feaf147d2247, -48); (412, -0x29dbacc01cee5, -47); (413, -0x6ed7ba29556a3, -48); (414, -0x112b18bfc00c95, -49); (417, -0x1a9e769b0b9521, -50); (419, -0x10ddefe24c7b43, -49); (422, -0x7fad8e5ed1b61, -49); (423, -0x31c60a2114f59, -46); (425, -0x881b34919f3e1, -49); (426, -0xb031d6ef09b8d, -49); (427, -0xd316e890feb1d, -49); (433, -0x126a40aa89dcf9, -49); (434, -0x144cc4d9698d65, -51); (435, -0x5162389d2f993, -48); (438, -0x99ee04bb354b1, -49); (439, -0xc16337bb1b867, -48); (443, -0x16b087c134da67, -49); (444, -0x1b85179d8895a7, -50); (445, -0x181833fa5c1773, -50); (446, -0x5484e110721c7, -48); (447, -0xb9a297318d75d, -49); (448, -0x2ff0212c778ed, -47); (449, -0xcf51a778966bf, -49); (450, -0x105d8f146decc1, -49); (451, -0x701d6cc228a1d, -48); (452, -0x918a4b9699269, -51); (454, -0x9d5bc02f7694f, -49); (456, -0x15669e9784299, -45); (459, -0x84fc956786a29, -48); (460, -0x2117fa5fbe4b1, -46); (461, -0x198f4b2753146d, -49)]);
  (408, []);
  (409, [(100, -0xc56cf9165f633, -50); (101, -0xbf346974ddf7b, -49); (103, -0x1be50b861181f7, -50); (104, -0x1073efe8df68a7, -49); (106, -0x191f4326323ab9, -50); (107, -0x12a0ac3d7941c3, -50); (112, -0x720b94cc4e423, -48); (115, -0x5e00439d9904d, -48); (117, -0x1e221771df8a11, -50); (120, -0x1b5c4f120042d3, -50); (122, -0x189686b220fb95, -50); (125, -0x17e6136c3ca6a9, -51); (127, -0x85de518089b7b, -49); (129, -0x16f7547355021, -46); (130, -0x189686b220fb95, -50); (132, -0x720b94cc4e423, -48); (133, -0x8eb6a0c678623, -48); (134, -0x8eb6a0c678623, -48); (138, -0x16597ac652f37b, -50); (142, -0x1e221771df8a11, -50); (143, -0x5ec81bcf909b1, -48); (152, -0x6286b837ae665, -49); (156, -0x5ec81bcf909b1, -48); (162, -0x1a163655de7ce7, -50); (400, -0x1ad70f05f93a91, -52); (402, -0x1f37ecc6cc3073, -51); (403, -0x8eb6a0c678623, -48); (404, -0xfa456c9796be5, -49); (406, -0xa5d2443c37cfb, -49); (407, -0x1a14b1c694579f, -51); (409, -0xd3be7a9e1b701, -49); (410, -0x8eb6a0c678623, -48); (412, -0x59fae15671591, -48); (413, -0x4b33864389295, -48); (414, -0x1e221771df8a11, -50); (417, -0x10f32795ddc7c9, -50); (419, -0x1073efe8df68a7, -49); (422, -0x5c859931fe85f, -49); (425, -0x1a9958590c99ab, -51); (426, -0x1edb1e901e3fb7, -51); (427, -0x101644e096c021, -50); (433, -0x8eb6a0c678623, -48); (434, -0x19f859141b17a3, -51); (435, -0xfc57b4dbbb63, -46); (438, -0x45849ca2e3325, -48); (444, -0x720b94cc4e423, -48); (445, -0xc0bc7b338219d, -50); (446, -0xa5d2443c37cfb, -49); (447, -0x1073efe8df68a7, -49); (448, -0x130af5f2626d19, -50); (449, -0x5e00439d9904d, -48); (450, -0x16cd8735a751f3, -50); (451, -0x1d3d97b3a2b53f, -50); (452, -0xce4ca621685b, -47); (454, -0x1e8ec99e3067d3, -51); (459, -0x1e8ec99e3067d3, -51); (460, -0x1558223489088b, -50); (461, -0x8eb6a0c678623, -48)]);
  (410, [(100, -0x144dc217e88d7f, -50); (101, -0x1cb8643cb48059, -50); (103, -0x11943a5d57f1d3, -49); (104, -0xdfed8de12add3, -49); (106, -0x475723dfbbee5, -48); (107, -0xccb4909c943fd, -50); (108, -0x1cb8643cb48059, -50); (110, -0x1b5fd80f234d1, -46); (112, -0x1853699e093f97, -50); (115, -0x15b05854c8e497, -50); (120, -0x914ff98a45143, -49); (122, -0x117b902d4cff25, -50); (124, -0xece71fd78aa95, -49); (125, -0xa9936d54bc79f, -50); (127, -0x19dc87300bd263, -51); (128, -0x6b5c6e6c4837b, -48); (129, -0x1853699e093f97, -50); (130, -0xb39107e336695, -49); (132, -0xc72f9528b8ebf, -49); (133, -0x1a5e7f7d596221, -50); (134, -0x1811533b32c6af, -50); (138, -0x16ec093c27820b, -51); (141, -0x1ec37a1c04a2e3, -50); (142, -0xc72f9528b8ebf, -49); (143, -0x108accf27ca901, -50); (145, -0x40c558b5a138d, -47); (152, -0xb8ef609925073, -50); (156, -0xc4d07d7a202e9, -49); (160, -0x1ec37a1c04a2e3, -50); (162, -0x332205bde09, -39); (400, -0x1cf3c2bee65611, -51); (401, -0x11943a5d57f1d3, -49); (402, -0x59214efae4743, -48); (404, -0x1b5fd80f234d1, -46); (406, -0x17d33ed9b2a3e9, -50); (407, -0x17bb505f3e202f, -51); (410, -0x162ad5425e448d, -51); (412, -0xc72f9528b8ebf, -49); (413, -0x2037facf8137f, -47); (417, -0x9c145af6ceae7, -49); (419, -0x40c558b5a138d, -47); (422, -0x1346e0869ec551, -50); (425, -0x1024c7950a561b, -50); (426, -0x89fd4dfa93923, -49); (427, -0x2037facf8137f, -47); (433, -0x1cb8643cb48059, -50); (434, -0x113417a30158b, -46); (435, -0x475723dfbbee5, -48); (438, -0xd3e49bac6ccd3, -51); (444, -0x19f29bdcd5391b, -50); (445, -0x1853699e093f97, -50); (446, -0x1ec37a1c04a2e3, -50); (447, -0x11943a5d57f1d3, -49); (448, -0x144dc217e88d7f, -50); (449, -0x1a4e55cb36a65b, -51); (450, -0x13c1e7a2e76b4b, -50); (451, -0x176159b7ad8a1, -46); (452, -0x13ada4be8f8f01, -51); (454, -0x1346e0869ec551, -50); (456, -0x11943a5d57f1d3, -49); (459, -0x141cfcafa56d9d, -50); (460, -0x19bd23f71bf44b, -51)]);
  (411, []);
  (412, [(100, -0x909b23e009b93, -49); (101, -0x2c8c6d95f8737, -47); (103, -0x1143038680bc7, -45); (104, -0xa97212eb26ba1, -49); (106, -0x9a8b6dc4443f, -45); (107, -0x6f0dab9b3643b, -49); (108, -0x12c8a15b22c8e9, -49); (110, -0x62b0bb728fd6d, -47); (112, -0xb30d5dfee6ead, -49); (115, -0x162c9f555add9d, -50); (117, -0x16200fff707379, -50); (120, -0x2e1da70edd6d9, -47); (122, -0x1a57153d69418b, -51); (124, -0x163b475d445a4f, -50); (125, -0x124447538a5539, -51); (127, -0x1006b6c24d7539, -50); (128, -0x1f775c3df11c8b, -50); (129, -0x1a1ac7bb0e33c7, -50); (130, -0x8042e57f976c1, -49); (131, -0x19ead1798dba1, -46); (132, -0x2ed6765669e37, -47); (133, -0x4117bc78bd1fb, -47); (134, -0x1615e64a3d668f, -50); (135, -0xeca0fe800b185, -49); (138, -0x20ba8b0ffc645, -47); (140, -0x1adeac2bf99615, -49); (141, -0x262c1f00d9ff, -42); (142, -0x161946a8fb108b, -50); (143, -0x13c4320568ace7, -50); (145, -0x1c4d2436196573, -50); (152, -0xefb2f631775f7, -51); (153, -0x44b9cb8725fbd, -47); (155, -0x62b0bb728fd6d, -47); (156, -0x92c3c5c564107, -49); (157, -0x14e0db8d1c9d31, -49); (160, -0xa4ca65642948d, -48); (162, -0x31f119f09def3, -47); (400, -0x457773530d5d7, -48); (401, -0xa7d8f553c34a5, -48); (402, -0x7629ac1110e07, -48); (403, -0x17a6a3ecfbe46f, -49); (404, -0xc7f5ddd9110f, -45); (406, -0x4b1c4e466f0e9, -48); (407, -0xa7a38f931cc5f, -50); (409, -0x11c8817025b649, -49); (410, -0x13f0373c4b63fb, -49); (412, -0x87c61ec9391a9, -49); (413, -0x1959747f668f93, -50); (414, -0x93ec8df6a4221, -48); (417, -0x12db97f1624ee7, -50); (419, -0x1e60872d4ae069, -50); (422, -0x80911fdd8868b, -49); (423, -0x16b5ff9c2aab39, -49); (425, -0xcd32cb0b261a5, -50); (426, -0x11774588d5ed31, -50); (427, -0x156efe4f3d40ab, -50); (433, -0x87aa500fbc389, -48); (434, -0x190c15673138b5, -51); (435, -0x41ec5e19d4c9d, -48); (438, -0x3c6d062edb39b, -48); (439, -0xaf3333e62573b, -48); (444, -0xd7242ef4991c7, -49); (445, -0x539f65ed5951b, -48); (446, -0x1d3286d21c71ef, -50); (447, -0x1e404be5d2f215, -50); (448, -0x138aa0c78d813, -47); (449, -0x1222111b770d2f, -50); (450, -0x1e60872d4ae069, -50); (451, -0x4160b35f93bb9, -47); (452, -0x1edea789d226e5, -52); (454, -0x14993cd94c96a9, -50); (456, -0x8fb05fb425bb9, -48); (459, -0x1036ccc95d6881, -49); (460, -0xe94d978eb5747, -49); (461, -0x1adeac2bf99615, -49)]);
  (413, [(100, -0x15e7b286ec78d5, -50); (101, -0x1ce3729190529b, -50); (103, -0x11f3c814c892dd, -49); (104, -0x67dc132c9d59f, -48); (106, -0x166b894ce5979f, -50); (107, -0x1224f80859bba3, -50); (108, -0x14f5de83843001, -49); (112, -0x172c8197127afd, -50); (115, -0x1a6fa0e8e00247, -50); (117, -0xf8b58f530ddf9, -49); (120, -0x73dd539cfc9b, -44); (122, -0x13cd9a5e66b96b, -50); (124, -0x12c361342e8f9f, -49); (125, -0xbb5fa8a712f75, -50); (127, -0x1cc0e7fd18737b, -51); (128, -0x1ffb31a89e90c3, -50); (129, -0x1663bfccdef51d, -50); (130, -0x147e981338b331, -50); (131, -0x1274745dad8855, -49); (132, -0x1921cdb858b713, -50); (133, -0x12c361342e8f9f, -49); (134, -0x3a1738162332d, -47); (135, -0x1ffb31a89e90c3, -50); (138, -0x1569c195102b19, -50); (141, -0xb2c6159b9e9d, -44); (142, -0xb691d1f465a85, -49); (143, -0x166f73c3aa26ab, -50); (145, -0x1e9687260b2045, -50); (152, -0xd0a733fb8b7c9, -50); (156, -0x5d3854fb54957, -48); (160, -0x14f5de83843001, -49); (162, -0x1bc1cbc9538c85, -50); (400, -0x1c67d390f4a48f, -51); (401, -0x782822ca8e815, -48); (402, -0x8c281820fff47, -49); (404, -0x1667a2a7c5bdbf, -50); (405, -0x118d09c59405cd, -49); (406, -0x116e4e45bcefef, -50); (407, -0x1ae91a007e219d, -51); (409, -0x1bc1cbc9538c85, -50); (410, -0xd22e9d5992915, -49); (412, -0x428d162ccb19d, -48); (413, -0x13a63c3435dba3, -51); (414, -0x10ae27c2f533c1, -49); (417, -0x7aa95bb6b5e0d, -49); (419, -0x183294fd11fa2d, -50); (422, -0x1224f80859bba3, -50); (423, -0x1e3ff0efca4361, -50); (425, -0x4504e534faf57, -49); (426, -0x13a4e4ea3e8659, -51); (427, -0x1c75e6ef32ce1f, -51); (431, -0x9c97d29ca4631, -48); (433, -0xc017905d57751, -49); (434, -0x1d58ebbc9e37a9, -51); (435, -0x1c1efe02bdc965, -51); (438, -0x1118346342ad5d, -50); (439, -0x44de06a29dc23, -47); (444, -0x15126e39c5e42d, -50); (445, -0x11b2ca944379a9, -50); (446, -0x1e9687260b2045, -50); (447, -0x1f39690100a83, -46); (448, -0x104b17e1621dd, -46); (449, -0x1912850cea81ab, -50); (450, -0xba230398bfd37, -49); (451, -0x1b881733c57759, -50); (452, -0x7252b2c02545d, -50); (454, -0x67f734375089f, -49); (456, -0x11f3c814c892dd, -49); (459, -0xdb714e4d49657, -50); (460, -0x16a3c523013bd9, -50); (463, -0x8deeb22433f2d, -48)]);
  (414, [(100, -0x896ffb24c81b7, -49); (101, -0x17a2991ed89085, -51); (103, -0x1c3a67e70c385, -46); (104, -0x7e6e3ca47b3f3, -49); (106, -0xa963ede076337, -49); (107, -0xfd5733707d025, -50); (112, -0x16aed7274da9d5, -50); (115, -0x115a0c24716393, -50); (117, -0xa79cb373cae39, -49); (120, -0x4e0e5ac61687f, -48); (122, -0x924ee44513489, -49); (124, -0x827d8a16dde45, -48); (125, -0xdac09ba47455, -48); (127, -0x1d12258e20213f, -51); (128, -0x19cdb909d724ab, -50); (129, -0x18901fc8f01c41, -50); (130, -0x85ee728d32d5f, -49); (131, -0x19cdb909d724ab, -50); (132, -0x9613c532d8a6f, -49); (134, -0x827d8a16dde45, -48); (135, -0x14d84782b51f7d, -50); (138, -0x108e9bcfce1bb, -46); (141, -0x23652ae596c05, -46); (142, -0x14d84782b51f7d, -50); (143, -0x9717db0b771b3, -49); (145, -0x827d8a16dde45, -48); (152, -0x104ffc8bf04f9b, -50); (153, -0x1c3a67e70c385, -46); (156, -0xd1386338a3eaf, -50); (162, -0x18d6c5da2ae27d, -50); (400, -0x14d84782b51f7d, -50); (401, -0x23652ae596c05, -46); (402, -0x184e096619a359, -50); (404, -0x73d4699e6d741, -48); (406, -0x13d3f18e7d9325, -50); (407, -0x431e0c758e16b, -48); (409, -0x1dd99a25d831d5, -50); (410, -0x23652ae596c05, -46); (412, -0x57295da443541, -48); (413, -0x57295da443541, -48); (414, -0x6a6cd6a100fb3, -48); (417, -0x1e16f01614ec11, -51); (419, -0x1c3a67e70c385, -46); (422, -0x123bbcb274906b, -50); (425, -0x1983b72e85a729, -51); (426, -0xe2e9555c36e61, -50); (427, -0x982478498c6e3, -49); (434, -0x839a67204ef5d, -49); (435, -0x7990eb8ca1575, -49); (438, -0x1bf00be38e27, -43); (439, -0x1b13d1c5f8ea97, -50); (444, -0x1b13d1c5f8ea97, -50); (445, -0x4e0e5ac61687f, -48); (446, -0x827d8a16dde45, -48); (447, -0x73d4699e6d741, -48); (448, -0x118813e104807f, -50); (449, -0x6a6cd6a100fb3, -48); (450, -0x6a6cd6a100fb3, -48); (451, -0x827d8a16dde45, -48); (452, -0x43e5e4a785acf, -48); (454, -0x262b89d79f2db, -47); (459, -0x23652ae596c05, -46); (460, -0x1b9c8e3a0a29bb, -50)]);
  (415, []);
  (416, []);
  (417, [(100, -0x14b09d04d15259, -50); (101, -0xdbee483669fb1, -49); (103, -0x4013a9ce49d07, -47); (104, -0xbc9649bce5721, -49); (106, -0x164ad261050fc5, -50); (107, -0x126f016a9efceb, -50); (108, -0x16d25431d569c3, -49); (110, -0x55bdc00797189, -47); (112, -0x13a29194370f0f, -50); (115, -0x1b6d7ce2ad16a3, -50); (117, -0x155780e11d3067, -50); (120, -0xd283036dabc71, -49); (122, -0x4bbab7fc3dca1, -48); (124, -0x25dc0bb81e3cf, -46); (125, -0x1f20f3838cba83, -52); (127, -0x1a782618e2db17, -51); (128, -0x1fc7be844e6f51, -50); (129, -0x129836ff62647, -46); (130, -0x1c6dfcc01ac8f3, -51); (131, -0x1bbbdd684d6227, -50); (132, -0x1391ce6f7ec771, -50); (133, -0x10c7df1061624f, -49); (134, -0xd0e5594c0b451, -49); (135, -0x10a3b71405f851, -49); (138, -0x1500a986be5787, -50); (141, -0x140c8bd1f62285, -49); (142, -0x1464833508a03, -46); (143, -0xa890e34b74a01, -49); (145, -0x1e542104e2b25, -46); (152, -0xb7ffabe625005, -50); (153, -0x13697f73e53f8f, -49); (156, -0x1275dae5046459, -50); (160, -0x1602bb126f6d01, -49); (162, -0xf46acdf7bed79, -49); (400, -0x18c48a0b879ba1, -51); (401, -0x1ff8e7d877aeb7, -50); (402, -0x1743ac5e9307cf, -50); (403, -0x55bdc00797189, -47); (404, -0x15ac1e6e850e49, -50); (405, -0x16d25431d569c3, -49); (406, -0xf083538a284a9, -50); (407, -0x363ae4abce68f, -48); (409, -0xfd41df49ffb8f, -49); (410, -0x25dc0bb81e3cf, -46); (412, -0x1d3fb2c1e9f2b7, -51); (413, -0x96b8df777d15f, -49); (414, -0x1b1ab1fe51bf9b, -50); (417, -0x14689caf94184d, -51); (419, -0x1a11190d304f0b, -50); (422, -0x1029381f355eb3, -50); (423, -0x13d03dc319cc9f, -49); (425, -0x11634727a8f55d, -51); (426, -0x1a3854681ffb7b, -51); (427, -0x1026a4d8dcc423, -50); (432, -0xc1a9c30e286b1, -48); (433, -0x1e3345428c5de1, -50); (434, -0x388fced523b91, -48); (435, -0xe1700d4788093, -50); (438, -0x1250bcc0fb3e15, -50); (439, -0x1146c37216db47, -49); (444, -0x17affc4c4c54fd, -50); (445, -0x22579e4c810a1, -47); (446, -0x1ab2ca621df1ef, -50); (447, -0x11b113270906af, -49); (448, -0xfa6194487387, -46); (449, -0x1d3b8d0c0ae379, -50); (450, -0x1670d628405adb, -50); (451, -0x1ff8e7d877aeb7, -50); (452, -0x125d266daff111, -51); (454, -0x97472b5728db7, -49); (456, -0xa4feb713fe4b1, -48); (459, -0xaab29de64a1b7, -49); (460, -0x35c16f6152fd, -43); (461, -0x139a4bf2d7b81d, -49)]);
  (418, []);
  (419, [(100, -0x2370c9d65fa87, -47); (101, -0xb772b5c7d45eb, -49); (103, -0x82172252e89df, -48); (104, -0x12aca43fc82ff5, -50); (106, -0x9053db1adead5, -49); (107, -0x1868987c16be77, -51); (108, -0x1e402af9317beb, -50); (112, -0x15636b9e0104f9, -50); (114, -0x57b5fceb6ece7, -47); (115, -0x99c0a4776aac5, -49); (117, -0x32ca389d375a1, -47); (120, -0x1466a2ba9b675d, -50); (122, -0x201ab82576b05, -47); (124, -0x1121c64cfbe5c9, -49); (125, -0xd4b1a50c5901b, -51); (127, -0x137690e00d78f5, -50); (128, -0x1082f9ac886195, -49); (129, -0x1c49c51e9e3a0d, -50); (130, -0xb8d8e32940f7, -45); (131, -0x1d3381c173604d, -50); (132, -0xbae0705f0dd13, -49); (133, -0x21987c601ea11, -46); (134, -0x165f75ecb18de3, -50); (135, -0xd4429597b3f93, -49); (138, -0x10b68d5f4999b, -46); (142, -0x4f662e3b747a3, -48); (143, -0xa3f16a5878dbb, -49); (145, -0xc5e95f496c873, -49); (152, -0x1014ab1faea7bd, -51); (153, -0x993db6d7e362f, -48); (156, -0x12e0f79262f, -38); (157, -0x57b5fceb6ece7, -47); (160, -0x13bb01eb86133b, -49); (162, -0x19b99cb2c390c9, -50); (400, -0x11ac8e518751ad, -50); (401, -0x120930e5156851, -49); (402, -0x1c74715deeeedd, -50); (404, -0x1afa37d4fb99, -42); (406, -0x1cfaa1089eb623, -51); (407, -0x12b784f2e61c7b, -51); (409, -0xd75a26c11a63f, -49); (410, -0x148a9b0aec0ffd, -49); (412, -0x4ad0e84301511, -48); (413, -0xd75a26c11a63f, -49); (414, -0x10f5398ba6cbfd, -49); (417, -0x19207dd9f71675, -50); (419, -0x16b8fe4d334377, -50); (422, -0x10345867e8b1fb, -50); (423, -0x57b5fceb6ece7, -47); (425, -0x7edcaeda20871, -49); (426, -0x4da367dcc1d5b, -48); (427, -0xd04df0566d4f9, -49); (433, -0x11c4d2ab0cc8bf, -49); (434, -0x1722da6b1eb3e1, -51); (435, -0x9d06c6f8c324b, -49); (438, -0x116167bf6b8947, -50); (444, -0x1c20cdf60ee6b9, -50); (445, -0x14a2892895f43b, -50); (446, -0x1d857878a25737, -50); (447, -0x1e62e20fd06829, -50); (448, -0x1499829af557c3, -51); (449, -0x1d3381c173604d, -50); (450, -0x1025a06c40cf3b, -49); (451, -0x115292cbee5e57, -49); (452, -0x853d9f506792f, -50); (454, -0x163577eace6c6d, -50); (456, -0x148a9b0aec0ffd, -49); (459, -0x1f7dc43a188455, -50); (460, -0xd04df0566d4f9, -49)]);
  (420, []);
  (421, []);
  (422, [(100, -0x12b9d2a3159f8b, -50); (101, -0x63fb07cce5277, -48); (103, -0x8597302a08e9, -44); (104, -0xa39f8f20f0d67, -49); (106, -0xa825c17013005, -49); (107, -0x130377b5e33aff, -50); (108, -0xa9a7cf5719bf5, -48); (110, -0x639828743b115, -47); (112, -0x89a3b976f398b, -49); (114, -0xcdad19e3a608b, -48); (115, -0x1c37743d7f0981, -50); (117, -0xa5c971f1c79e1, -49); (120, -0xcbe4963aed293, -49); (121, -0x1b18876c6464b5, -49); (122, -0x11419570b042a9, -50); (124, -0x1adaee3edebbdb, -50); (125, -0x1b131d0d438c6b, -52); (127, -0x8127609fd0ef1, -49); (128, -0x43643cdde638b, -47); (129, -0xcaab3e69d23c9, -49); (130, -0xf4fcb0545aaa3, -50); (131, -0x15c626ab9c0e13, -50); (132, -0x15293ac452da2f, -50); (133, -0xac67b5652eb1d, -48); (134, -0x1832c854c8b2f1, -50); (135, -0x1617439e01de5b, -50); (136, -0x1b18876c6464b5, -49); (138, -0x4c7ab3720dcb, -44); (141, -0x5745539ab9d73, -47); (142, -0x17e215cb9d1ba3, -50); (143, -0x446f216540771, -48); (145, -0x7a74c20a79457, -48); (152, -0x126f131c7c7a3b, -51); (153, -0x13027c9b8d9789, -49); (156, -0x12e726aa9158bf, -50); (160, -0x5745539ab9d73, -47); (162, -0xf85a335b7d659, -49); (400, -0x1d2742f4c0a891, -51); (401, -0xb26673f424b71, -48); (402, -0x1d2f1bc1590e21, -50); (403, -0x1b18876c6464b5, -49); (404, -0x32c61e36acc17, -47); (405, -0x1b18876c6464b5, -49); (406, -0x122581fef1e34b, -50); (407, -0xec6266605d5fd, -50); (409, -0x4f1324490985, -43); (410, -0x14d327eceff7b9, -49); (412, -0x89c8f0006272d, -49); (413, -0x1aa113027694c5, -50); (414, -0x8a29ff60b6cfd, -48); (417, -0xa1f6d412dde05, -49); (419, -0x6b147a40374d7, -48); (422, -0x424a1485b85ed, -49); (423, -0xac67b5652eb1d, -48); (425, -0x141b1fdcc88ef1, -51); (426, -0xf2533a9cc4333, -50); (427, -0x16a805e4db2843, -50); (431, -0x1b18876c6464b5, -49); (433, -0x156dec7be5c4d7, -49); (434, -0xccea9fd2a4a69, -50); (435, -0x20bc2bbe92d23, -47); (438, -0x9790a11c456b5, -49); (439, -0x1387061ea54fa5, -49); (444, -0x17b7773eb5cfdd, -50); (445, -0x1864c5a445d72b, -50); (446, -0x3e297be992603, -47); (447, -0xfb710a106c7e9, -49); (448, -0x1b4b9d3cb64a0d, -51); (449, -0x15ec4c20ff4ccb, -50); (450, -0xca5748b85846d, -49); (451, -0x144b1dae216f0f, -49); (452, -0x110fd969e6aa55, -51); (454, -0x14ec2a62521d3f, -50); (456, -0x143a53da4019df, -49); (459, -0x1fdf6a26bc47c9, -50); (460, -0xd33ad62dbc17f, -49)]);
  (423, [(100, -0x15139b0196acbb, -50); (104, -0x1a9f2bc1553b37, -50); (106, -0xa178da1acebf5, -49); (107, -0x12d68f15c8a4a1, -50); (115, -0x1a9f2bc1553b37, -50); (120, -0x15139b0196acbb, -50); (122, -0x58e8c48aa7e9d, -48); (125, -0x55ecbc6a20e71, -49); (127, -0x1010c6b5e95d63, -50); (129, -0x58e8c48aa7e9d, -48); (130, -0x8ea9b41ff5cd9, -49); (131, -0x1a9f2bc1553b37, -50); (132, -0x8ea9b41ff5cd9, -49); (133, -0x1a9f2bc1553b37, -50); (134, -0x17d9636175f3f9, -50); (138, -0x17d9636175f3f9, -50); (142, -0x17d9636175f3f9, -50); (143, -0x58e8c48aa7e9d, -48); (152, -0x198483c3f1ae03, -51); (400, -0x45a54b8dea42b, -48); (402, -0x12d68f15c8a4a1, -50); (404, -0x17d9636175f3f9, -50); (406, -0x58e8c48aa7e9d, -48); (407, -0x3c3db8907dc9d, -48); (409, -0x1a9f2bc1553b37, -50); (412, -0x3c3db8907dc9d, -48); (413, -0x1757982e7c3941, -51); (417, -0x10aea062eb6bf9, -50); (419, -0x137468c2cab337, -50); (422, -0x1bd1b006184975, -51); (423, -0xa178da1acebf5, -49); (425, -0x1f6cec394f98c3, -52); (426, -0x1fb8c6da57cf6f, -52); (427, -0x198483c3f1ae03, -51); (434, -0x1bd1b006184975, -51); (435, -0x1a95fcac142c4b, -51); (438, -0x19085b00f16879, -51); (439, -0x58e8c48aa7e9d, -48); (444, -0x45a54b8dea42b, -48); (445, -0xd703be55378ef, -50); (446, -0x1a9f2bc1553b37, -50); (448, -0x58e8c48aa7e9d, -48); (450, -0x15139b0196acbb, -50); (452, -0x149f8b8f1c237d, -51); (454, -0x1f9441495d2e4f, -51); (459, -0x7a4faf02bfdbd, -49)]);
  (424, []);
  (425, [(100, -0x12bed004d03fff, -50); (101, -0x1981266f1101c1, -50); (103, -0x44a5d17e730eb, -47); (104, -0x169b69fef7c3ed, -50); (106, -0x11fa1186756707, -50); (107, -0xecb541051b1f, -46); (108, -0x96d4a50f91061, -48); (110, -0x592ad5a9a49b, -43); (112, -0x130ffd3938c73d, -50); (114, -0x1c2e42ebea538b, -49); (115, -0x16f6e4a0ae1d93, -50); (116, -0x1c2e42ebea538b, -49); (117, -0x17e06e621e7207, -50); (120, -0x17a75272c0ee57, -50); (122, -0x43bb131c0e611, -48); (124, -0x10e93fc7576bbd, -49); (125, -0x88ee40748f6c1, -50); (127, -0xf5a7b1188fc2b, -50); (128, -0x3f66451718849, -47); (129, -0xc65846b30ded1, -49); (130, -0x11f57bd2e3f061, -50); (131, -0x76501953bce03, -48); (132, -0xb9b8ffdf731cd, -49); (133, -0x10dc9b44c05d2d, -49); (134, -0xc5c09fd22f437, -49); (135, -0x1e8f3db988f459, -50); (138, -0x11326f16fc8e11, -50); (141, -0x53d5e2c16e867, -47); (142, -0x1497d83007cfa1, -50); (143, -0x133560e348aa39, -50); (145, -0x1884cb4867e48d, -50); (152, -0x12cad2eb971e21, -51); (153, -0x490523ccf88a9, -47); (155, -0x6b2d7aefeabfb, -47); (156, -0x135120903bb79d, -50); (157, -0x1683a7fb6bb3ad, -49); (160, -0x23302dbe3cd99, -46); (162, -0x197df482dd8863, -50); (400, -0x1ee538f46f3d8f, -51); (401, -0x144739813ea939, -49); (402, -0xd3ca1d7165589, -49); (403, -0x13341460130e1, -45); (404, -0xbcfca55bc7137, -49); (405, -0x6b2d7aefeabfb, -47); (406, -0x1d9e15d36caf59, -51); (407, -0x15b96e2abcf557, -51); (409, -0x1fd1b451fdecdb, -50); (410, -0x1149882927e927, -49); (412, -0x1a6d2b9f9012fd, -51); (413, -0x15a063aeb851b5, -50); (414, -0x470c049c2df49, -47); (417, -0x9bf8e22c93d19, -49); (419, -0xc3b7a1074e459, -49); (422, -0x104185738ad9db, -50); (423, -0x9ee74e6263ee9, -48); (425, -0x147ae21df7d9ad, -51); (426, -0x6c6305134a02b, -49); (427, -0x129bf9f95c3341, -50); (431, -0xcfde2ce4a5995, -48); (433, -0x42ad491cccce5, -47); (434, -0x192519c1e02241, -51); (435, -0x7e6ef3b357c7, -45); (438, -0x1da549a26102c5, -51); (439, -0xaffd2e70d710d, -48); (444, -0x185c2a3998b1b7, -50); (445, -0x119d067e3ce01d, -50); (446, -0x6e27cf42f92cf, -48); (447, -0x1e0b5e9d05a54d, -50); (448, -0x17494d47a7d8f3, -51); (449, -0x155ba94815c433, -50); (450, -0x355f61e50c77d, -47); (451, -0x1e000df711749f, -50); (452, -0x1f8a7da6195ed9, -52); (454, -0x13628042b79411, -50); (456, -0x11aa6c7cf6dd7, -45); (459, -0x1ab2c467554c0b, -50); (460, -0x2b16e78301f8b, -47); (463, -0x6b2d7aefeabfb, -47)]);
  (426, [(100, -0x4b2a7b6af8fdb, -48); (101, -0x1937ab32e13551, -50); (103, -0x4790c400a5633, -47); (104, -0x16923f4b50b625, -50); (106, -0x12ce1ca12f0667, -50); (107, -0x78e1b07f6a633, -49); (108, -0x9198eeb55300b, -48); (110, -0x1698187555a0d9, -49); (112, -0x13277742c9928b, -50); (115, -0x175b076e5b3b5b, -50); (117, -0x18d13d0ac4b2e1, -50); (120, -0x1877010490e215, -50); (122, -0x1149afaf834bf7, -50); (124, -0x21c718b3ff2dd, -46); (125, -0x874d922b419e9, -50); (127, -0x38f4add7b0217, -48); (128, -0x1f2979cda12d5f, -50); (129, -0x179b90ee0cc28b, -50); (130, -0x8e5bc56a42b5f, -49); (131, -0x1d3850d7a63cf, -46); (132, -0x168f433f897cc5, -50); (133, -0x11a6fbfa887975, -49); (134, -0x63518ce79fa41, -48); (135, -0x1f2979cda12d5f, -50); (138, -0x11c218c0114953, -50); (140, -0x1a2d79f49ae4d9, -49); (141, -0x4b66ee69e3859, -47); (142, -0x15dcd812afbf1b, -50); (143, -0x138b9c5a3d8bf5, -50); (145, -0x1b003b8143c7b7, -50); (152, -0x977296f3e864b, -50); (153, -0x14a1e934dc565d, -49); (156, -0x13fb3f562437f, -46); (157, -0x1767b194bb9d9b, -49); (160, -0x8ee106a7e879, -44); (162, -0x1a0ca5df4cfb87, -50); (400, -0xeff47838b88e1, -50); (401, -0x9198eeb55300b, -48); (402, -0x1714c4adf775ff, -50); (403, -0x16f571b59d3333, -49); (404, -0x184cb40d80e8e7, -50); (405, -0xc654ae255a09d, -48); (406, -0x1e8a017628ad1f, -51); (407, -0x5ad2db4677bcb, -49); (409, -0x1eb56d5e4ccee7, -50); (410, -0x111cc91320f9a1, -49); (412, -0x36002c594545f, -48); (413, -0x241f3a1b12d67, -47); (414, -0x1205c6f7b7501d, -49); (417, -0x4a001e0c8396d, -48); (419, -0xbb5355988a01b, -49); (422, -0x10570da4da70c7, -50); (423, -0x13e81a752677dd, -49); (425, -0x54e241ae72fdf, -49); (426, -0x17dd06f550627d, -51); (427, -0x11f69078dab7b5, -50); (431, -0xc654ae255a09d, -48); (433, -0x10814cd039b52d, -49); (434, -0xc376250d62b1f, -50); (435, -0x1dc1e98574ffd, -47); (438, -0x1de140a78d4ed, -47); (439, -0x1416ae4f7ef92d, -49); (443, -0x1a2d79f49ae4d9, -49); (444, -0x183d2ac7d2d0c3, -50); (445, -0x11446f3ffedd6b, -50); (446, -0x1d1f6a34c1e44f, -50); (447, -0x1cae01668364c7, -50); (448, -0xd0be651d37255, -50); (449, -0x193ea485b7c0dd, -50); (450, -0x19b926436c19f5, -50); (451, -0x1ddbf57740f6a7, -50); (452, -0x1ff01a90fca453, -52); (454, -0x23355549a3dcd, -47); (456, -0x123cafda9255af, -49); (459, -0x16c0178adaa431, -50); (460, -0x60e2918c73a35, -48); (461, -0x16f571b59d3333, -49); (463, -0x1767b194bb9d9b, -49)]);
  (427, [(100, -0x14e5e4b1834e75, -50); (101, -0xde570e2ad4a3f, -49); (103, -0x4ef37fcd73d4b, -47); (104, -0x18cf5968f46c01, -50); (106, -0x157f038a4fc8c9, -50); (107, -0x87a4e737253b1, -49); (108, -0xa463c896178f7, -48); (110, -0x16bef66218924f, -49); (112, -0x15ab25bc288eff, -50); (115, -0xc635458f818e3, -49); (117, -0x1927644010d289, -50); (120, -0xd9b5b3df38ebd, -49); (122, -0x11c519257db289, -50); (124, -0x9058776762521, -48); (125, -0x37c88efe1fd59, -49); (127, -0x1a29c0b371c00d, -51); (128, -0x1f36b92feb9513, -50); (129, -0x13d5b432882b95, -50); (130, -0x89ee6a7ea3eb7, -49); (131, -0x84e0f46417d75, -48); (132, -0x16b5d2198b323d, -50); (133, -0x9804cc39de96d, -48); (134, -0x1b9521c8d3b33f, -50); (135, -0x10c125c33b996b, -49); (138, -0x14224ce2f7bc4b, -50); (140, -0xc10ed49041af7, -48); (141, -0x13f92e02394b11, -49); (142, -0x5707cb5f7420f, -48); (143, -0x998860ae861a1, -49); (145, -0xdf82cbccd7da7, -49); (152, -0xaf2fb3606e9b, -46); (153, -0x155c123228eeb, -45); (156, -0xb428b7827a3fd, -49); (160, -0x29d3a4a615089, -46); (162, -0x1c70f0d00c4dd5, -50); (400, -0xde5925d3b8185, -50); (401, -0x95baa81da71f3, -48); (402, -0x17787722df4677, -50); (403, -0xc10ed49041af7, -48); (404, -0x14b9fe459f550b, -50); (405, -0x15ef5d42b2958d, -49); (406, -0x10883be08d477d, -50); (407, -0xd1c0823f14e33, -50); (409, -0x115470d3c54047, -49); (410, -0x891d22a6963dd, -48); (412, -0x108721f38ab7e5, -50); (413, -0x8415ea2998d3f, -49); (414, -0x10e910567983ff, -49); (417, -0x804507a18681b, -49); (419, -0xce435635ee153, -49); (422, -0x113abc9de5cfe1, -50); (423, -0x8c5315203aa65, -48); (425, -0xa03a9415188ad, -50); (426, -0x647f3fc9ac1d9, -49); (427, -0x1ad9144dc974e3, -51); (431, -0x16bef66218924f, -49); (433, -0x1063cc82f40711, -49); (434, -0x306ae1ce1c88d, -48); (435, -0x7b3140d149453, -49); (438, -0x1045c19b8fcef, -46); (439, -0x94b24e924d3b9, -48); (443, -0x155c123228eeb, -45); (444, -0x158e5fc6258bad, -50); (445, -0x10325286c401af, -50); (446, -0x1b1c85ab1b0773, -50); (447, -0x1555ec7f5830c5, -50); (448, -0x1c7e2c18f70cad, -51); (449, -0x1a75d81dd3357d, -50); (450, -0xd3f55ff0c7c6f, -49); (451, -0x20b27bccf73eb, -46); (452, -0x821208ee8613f, -50); (454, -0x1f6ba273e98097, -51); (456, -0x15ef5d42b2958d, -49); (459, -0x153b6b37113e5d, -50); (460, -0x1a4f090cb1ed53, -50); (461, -0x16bef66218924f, -49); (463, -0xc10ed49041af7, -48)]);
  (428, []);
  (429, []);
  (430, []);
  (431, [(130, -0xe5585fd151001, -51); (156, -0x1f7460ff5100ff, -51); (400, -0x1f7460ff5100ff, -51); (404, -0x1f7460ff5100ff, -51); (407, -0x127ff8df87c7bd, -50); (412, -0x127ff8df87c7bd, -50); (413, -0x19e8d03f927283, -51); (417, -0x1fdc95b5fead2b, -54); (419, -0x127ff8df87c7bd, -50); (426, -0x127ff8df87c7bd, -50); (434, -0x127ff8df87c7bd, -50); (435, -0xe1afe40dc86fb, -50); (452, -0x127ff8df87c7bd, -50); (454, -0x127ff8df87c7bd, -50); (459, -0xe1afe40dc86fb, -50)]);
  (432, [(132, 0, 0)]);
  (433, [(100, -0x199d9957c35561, -50); (101, -0x1006d4eadf5c57, -49); (104, -0xf373bcb795f95, -49); (106, -0x155b55cfb700dd, -50); (107, -0xaf9a89cd39ca9, -49); (110, -0x8b4dc8d677ffb, -48); (112, -0x1c6361b7a29c9f, -50); (115, -0x1c6361b7a29c9f, -50); (117, -0x1006d4eadf5c57, -49); (120, -0xd856ac508b4ab, -49); (122, -0xdac42bca89b83, -50); (124, -0x8b4dc8d677ffb, -48); (125, -0x1bb7cb5c1f4e1d, -51); (127, -0x9f00945c370ab, -49); (129, -0x1c6361b7a29c9f, -50); (130, -0x16d7d0f7e40e23, -50); (132, -0x8b4dc8d677ffb, -48); (133, -0x115921abee4e79, -50); (134, -0xf373bcb795f95, -49); (138, -0xb862b994dd32b, -49); (142, -0x6ea2bcdc4ddfb, -48); (143, -0x1a097cf8477e67, -50); (152, -0xd664d41ce531b, -50); (156, -0x1006d4eadf5c57, -49); (162, -0x1d47e175df717, -46); (400, -0x9089eada9ee23, -49); (401, -0x8b4dc8d677ffb, -48); (402, -0x5692096670f69, -48); (404, -0x1d47e175df717, -46); (406, -0x308a1a5464443, -47); (407, -0x1067c079e8aad7, -50); (410, -0xd410c8b001519, -49); (412, -0x5692096670f69, -48); (413, -0x1d5b369ce50ce5, -51); (417, -0x12840c3bd6d673, -50); (419, -0x8b4dc8d677ffb, -48); (422, -0x9ccb63d260d8d, -49); (425, -0x1c32997c205b7, -47); (426, -0x63ef91397e441, -49); (427, -0x11f2ab94e231b3, -50); (433, -0x15058012325235, -52); (434, -0x13f8bf92d6a9c5, -50); (435, -0x7e37d71575c1f, -49); (438, -0x1006277c03b9bb, -50); (439, -0x1d47e175df717, -46); (444, -0xd856ac508b4ab, -49); (445, -0x199d9957c35561, -50); (446, -0xf373bcb795f95, -49); (447, -0x1006d4eadf5c57, -49); (448, -0x12d4b50ed597e3, -51); (449, -0x147dec3888efeb, -50); (450, -0x46c25a863d497, -49); (451, -0x16d7d0f7e40e23, -50); (452, -0x9118d25508ee3, -50); (454, -0x88715eb52ae71, -49); (459, -0x217a44eded2ef, -47); (460, -0x1e96e9f6e92a1, -47)]);
  (434, [(100, -0x40ebef938843d, -48); (101, -0x1920d25d2d966b, -50); (103, -0xf26c38a83f047, -49); (104, -0x47e0182bead89, -48); (106, -0xd6e2e2a8e5971, -49); (107, -0x1210aae3e34d45, -50); (108, -0x19e3ef4f8b2be1, -49); (110, -0x368da6fef59f, -42); (112, -0x8dd8b416037b5, -49); (114, -0xd3b9d300a695f, -48); (115, -0x2fa247b0bb66d, -47); (117, -0x1450bd121f654f, -50); (118, -0x1ca9b7af6a731f, -49); (120, -0xabb775a1a11e7, -49); (122, -0x1b03b1715f0b5b, -51); (124, -0x18e347e03a0dc1, -50); (125, -0x585c7cb1128d1, -50); (127, -0x18d811ff02b63b, -51); (128, -0xe92b9e1b77659, -49); (129, -0x2f5342d794f73, -47); (130, -0x1560692c29d17, -47); (131, -0xa80d059c50657, -49); (132, -0x140229c45c822d, -50); (133, -0x9c9c679cb49a9, -48); (134, -0x1c3ea2781f4fef, -50); (135, -0x19c6eef681b1c3, -50); (138, -0x18b3fd56580fd7, -51); (140, -0x2bb89be24efaf, -46); (141, -0x113fad541eecd, -45); (142, -0xf26eba3496169, -50); (143, -0x1c59c491535a67, -51); (145, -0x93b4aff13c067, -48); (152, -0x1384bad26c49c5, -51); (153, -0x1135924c185549, -49); (155, -0x368da6fef59f, -42); (156, -0x81d47a86e1581, -49); (157, -0x1ca9b7af6a731f, -49); (160, -0x2f62e4006b17, -42); (162, -0x1ae475a6f8271b, -50); (400, -0x842f5a7f1c5a9, -49); (401, -0x164e8dd045e7e1, -49); (402, -0x1db2eb0bb5c017, -50); (403, -0x16abe7108d7a3b, -49); (404, -0x18f18abe950fd3, -50); (406, -0x59b011329b, -36); (407, -0x248834ed302d3, -47); (409, -0x254f64deb8ff1, -46); (410, -0xb1cd398b787e9, -48); (412, -0x10550c8b49df5f, -50); (413, -0x19f355835657e7, -50); (414, -0x21367a53769e7, -46); (417, -0x13d262dc0da16d, -50); (419, -0x1ee639a9fd9097, -50); (422, -0x19b9d52299cd09, -51); (423, -0x52e3b655878fd, -47); (425, -0xd6c7d252f520f, -50); (426, -0x124feec9ae4549, -50); (427, -0x14a78e6a82b43b, -50); (431, -0x1664582ff60623, -49); (433, -0x140e0943ec1d91, -49); (434, -0x110a1721d52f3f, -50); (435, -0x11bcaf12265d3f, -50); (438, -0x55b798bcf2501, -49); (439, -0xb1cd398b787e9, -48); (443, -0x32e35ee0d982f, -46); (444, -0x180f4b1267fc73, -50); (445, -0x5fac936f8c0d7, -48); (446, -0x1ea5de76923401, -50); (447, -0xea737cb06232d, -49); (448, -0xae9b6b439c89b, -49); (449, -0x1513477fa2a927, -50); (450, -0xd3c4282091731, -49); (451, -0x1a4bc6db4d5355, -50); (452, -0x195bed474b3513, -51); (454, -0x16c5675052014b, -50); (456, -0x4c067bc9c578b, -47); (459, -0x10e40841f295d9, -49); (460, -0x3f1609302e473, -47); (461, -0x1ca9b7af6a731f, -49); (463, -0x1ca9b7af6a731f, -49)]);
  (435, [(100, -0x101f2de6d69f91, -50); (101, -0x1a16f49eac8555, -50); (103, -0x7ddf81d74c171, -48); (104, -0xa87f5e0c33fa1, -49); (106, -0x4dfdf16896e0b, -48); (107, -0x100bf347bb20d, -46); (108, -0x127c5c1c43d615, -49); (110, -0xa11cf431e0ca3, -48); (112, -0x122a755ef00faf, -50); (115, -0x15391b4d07e891, -50); (117, -0xbe6ded6736d29, -49); (120, -0xb68efd65b8abd, -49); (122, -0x107b6ec067d96b, -50); (124, -0x1f5d4724709fad, -50); (125, -0x1a00def11202cd, -52); (127, -0xfdf6b4c3631ab, -50); (128, -0x1fc640fb735147, -50); (129, -0x18be01b88792ab, -50); (130, -0x115c687f1709b3, -50); (131, -0x1c5f4d3198677d, -50); (132, -0xb51991db94e15, -49); (133, -0x249340229eeb9, -46); (134, -0xcbb0cc205ee27, -49); (135, -0x1d89350fa5492d, -50); (138, -0x105346877f152b, -50); (140, -0x635e17eda1855, -47); (141, -0x129d674daf1289, -49); (142, -0x1699c2243197e7, -50); (143, -0x12d2fd121e9f35, -50); (145, -0x1d2d1084d88dbf, -50); (152, -0x13ad492de9fe9f, -51); (153, -0x22bbac4cb9a41, -46); (156, -0x12a6bb642f73e5, -50); (157, -0xb528456096079, -48); (160, -0x89d418edfb775, -48); (162, -0xca1de8604404f, -49); (400, -0xde6c25c9b06f5, -50); (401, -0x137e5bf864856b, -49); (402, -0x1a9aaff1d5cd9, -46); (403, -0x1542247c231d53, -49); (404, -0xbe02c22a272d, -45); (406, -0x813ac8b857247, -49); (407, -0x194971d03ccef7, -51); (409, -0x8471e837b6aa3, -48); (410, -0x7d4b50b8af989, -48); (412, -0xe7eaaa58ac1e9, -50); (413, -0x57721461ad423, -48); (414, -0x11f9526944167d, -49); (417, -0x9c2b9a316302d, -49); (419, -0x1785c566bfd38d, -50); (422, -0xf294d0858967d, -50); (423, -0xa11cf431e0ca3, -48); (425, -0x14e679a8505e95, -51); (426, -0x1d097102f5fb4d, -51); (427, -0xa112cb7a800b9, -49); (433, -0x1176d12c9bc4d, -45); (434, -0x343b4e9f97afb, -48); (435, -0x1dec4077e7f459, -51); (438, -0xdd9f6794ebe81, -50); (439, -0x15d56f8cacc43, -45); (443, -0x1a3a6a2b5804f3, -49); (444, -0xc7a4bbfc97e7, -45); (445, -0x27f0423cda929, -47); (446, -0x1ce0f6008591d7, -50); (447, -0x1dd518057860d9, -50); (448, -0x19e3e70ed602a5, -51); (449, -0xa6f3075f4b7bb, -49); (450, -0xc7a4bbfc97e7, -45); (451, -0x34c87ed77fde3, -47); (452, -0x11e31bf05da02f, -51); (454, -0x9e6ea1ca4e9c5, -49); (456, -0x1271cd7fcb6e5d, -49); (459, -0x6c0b6c3f6deb, -44); (460, -0x1161f7fada17b7, -50); (461, -0x635e17eda1855, -47)]);
  (436, []);
  (437, [(435, 0, 0)]);
  (438, [(100, -0x1219880e78dc2d, -50); (101, -0xb5c18b1de5f, -41); (103, -0x84de85812bd0d, -48); (104, -0x5bba833236cb1, -48); (106, -0x13a99664cbb033, -50); (107, -0x191a16366ab54f, -51); (108, -0x3b65fa13bdde9, -47); (110, -0x165c0b290943c7, -49); (112, -0x146f2dcb7eafad, -50); (114, -0x1bc690b75c95cf, -49); (115, -0xa8117f0477857, -49); (116, -0x1a63ac876cf23, -45); (117, -0x1bb1db1108306f, -50); (120, -0xb2dd72a8e0863, -49); (122, -0xbf73ad9d09a47, -50); (124, -0xfa5e842ea0585, -49); (125, -0x122470dc0c4267, -51); (127, -0x93de853320f59, -49); (128, -0x42f68485560cb, -47); (129, -0x1c3a50bcb597c7, -50); (130, -0x18e8b0ead04195, -50); (131, -0x11e81d59511045, -49); (132, -0xe5b66c71bf1d7, -49); (133, -0x11503cd8fe281d, -49); (134, -0x19158d5adbe063, -50); (135, -0x1886c95c3a9781, -50); (138, -0xeac78fba548ef, -50); (140, -0x1a63ac876cf23, -45); (141, -0x4924a3e3a9dcb, -47); (142, -0x98812a9d36cf1, -49); (143, -0x1216323d5ded97, -50); (145, -0x6b7edd5df1d85, -48); (152, -0x87bfdb27d9c9d, -50); (153, -0xa4de6dc6906e7, -48); (155, -0xc18979c0ba8e7, -48); (156, -0x29642c16e527b, -47); (157, -0x13b995d1c75fa7, -49); (160, -0x4db51db64a045, -47); (162, -0x30e07bed6f1db, -47); (400, -0x1222459f769f91, -50); (401, -0x167f5e31a6a6e5, -49); (402, -0x7c750b563271, -44); (403, -0x16ce4b0827ae2f, -49); (404, -0x189b26f1eb385, -46); (406, -0x11f646f88639a1, -50); (407, -0x1200cca626352d, -51); (409, -0x987f716a5775d, -48); (410, -0x8ccdba50b3855, -48); (412, -0x15623d51ffab9, -46); (413, -0x1c790467f85447, -50); (414, -0x126950697c6d6d, -49); (417, -0x666478de7d57f, -48); (419, -0x18e83577dcf223, -50); (422, -0x1d5d0e45f3221b, -51); (423, -0x5f890986592a1, -47); (425, -0x1cad81fe81d5, -43); (426, -0x9b70344c4de1d, -49); (427, -0x1966cd5f7d0fd3, -50); (431, -0x1a63ac876cf23, -45); (433, -0x11feb4e0151db9, -49); (434, -0xbf4e636e18649, -50); (435, -0x1b9315de813595, -51); (438, -0xf05f2144531cb, -50); (439, -0x1a63ac876cf23, -45); (444, -0xea245f1d266a5, -49); (445, -0x52e406ee3ea23, -48); (446, -0x1b45945956e7f5, -50); (447, -0xff9d15ecdcc35, -49); (448, -0x160fc316977b31, -51); (449, -0xc231e04966c45, -49); (450, -0xe3e466f92b86f, -49); (451, -0x43ead2f0464b7, -47); (452, -0xdbdf969963447, -51); (454, -0x5f00b55c88773, -48); (456, -0x137d47c2eb09c1, -49); (459, -0x850cfabe5d087, -48); (460, -0x163f8566a10f8f, -50)]);
  (439, [(100, -0x4fbcda4c05dc9, -48); (104, -0x4fbcda4c05dc9, -48); (106, -0x1296aa657043db, -50); (107, -0x4655474e9963b, -48); (112, -0x17997eb11d9333, -50); (117, -0x1a5f4710fcda71, -50); (120, -0x17997eb11d9333, -50); (122, -0x120dedf15f04b7, -50); (125, -0x4ee8bc66a7ec3, -49); (127, -0xae32af2d47cb7, -50); (128, -0x1a5f4710fcda71, -50); (129, -0x154a2d22a8b3e3, -51); (130, -0x4655474e9963b, -48); (131, -0x17997eb11d9333, -50); (132, -0x1b51e6a56787e9, -51); (134, -0x1a5f4710fcda71, -50); (135, -0x4fbcda4c05dc9, -48); (142, -0x17997eb11d9333, -50); (143, -0xafd263928ccd7, -49); (145, -0x17997eb11d9333, -50); (152, -0x14fb65b9d77837, -51); (156, -0x4fbcda4c05dc9, -48); (400, -0xdd48812140079, -50); (402, -0x4fbcda4c05dc9, -48); (404, -0x4655474e9963b, -48); (406, -0x894b7199117f3, -49); (407, -0x203989f6c8289, -47); (412, -0x767c4b9e388d7, -49); (413, -0xdd48812140079, -50); (417, -0x1e904b22ff7af3, -51); (419, -0x13348412725271, -50); (422, -0x1f1477e8ac6cc3, -51); (425, -0x1afe4c2a0c27af, -51); (426, -0x812c608178e79, -50); (427, -0x1296aa657043db, -50); (434, -0x1d30581bf501b5, -51); (435, -0xe020cd55df78d, -50); (438, -0x1296aa657043db, -50); (444, -0x17997eb11d9333, -50); (445, -0x894b7199117f3, -49); (446, -0x1a5f4710fcda71, -50); (448, -0x1cc74ba685d151, -51); (450, -0x1a5f4710fcda71, -50); (452, -0xb0ebfb234b93b, -50); (454, -0x1cc74ba685d151, -51); (456, -0x1a5f4710fcda71, -50); (459, -0x14d3b6513e4bf5, -50); (460, -0xafd263928ccd7, -49)]);
  (440, []);
  (441, []);
  (442, []);
  (443, [(112, -0xe06b71d0a1453, -50); (125, -0xe06b71d0a1453, -50); (127, -0x15462a20517cff, -51); (130, -0x126bb1bbb55515, -50); (132, -0x1f4bd2b7ac1baf, -51); (138, -0xe06b71d0a1453, -50); (143, -0x126bb1bbb55515, -50); (152, -0x17f7427b73e391, -51); (406, -0x126bb1bbb55515, -50); (407, -0xb40eebd2acd15, -50); (412, -0x126bb1bbb55515, -50); (413, -0x126bb1bbb55515, -50); (417, -0x126bb1bbb55515, -50); (419, -0x1f4bd2b7ac1baf, -51); (425, -0x126bb1bbb55515, -51); (427, -0x19c041f7ed8d33, -51); (434, -0xe06b71d0a1453, -50); (435, -0x15462a20517cff, -51); (438, -0x1f4bd2b7ac1baf, -51); (444, -0x1f4bd2b7ac1baf, -51); (448, -0x17f7427b73e391, -51); (449, -0x126bb1bbb55515, -50); (452, -0x13ce5557395819, -52)]);
  (444, [(100, -0x160aeca9dab007, -50); (101, -0x1d6b1fd701f531, -50); (103, -0x10faac027b4c5f, -49); (104, -0x195f3ebb00e807, -50); (106, -0x17e8be2c8475a1, -50); (107, -0x26513b82d25e1, -47); (112, -0x5dbc6f216bc17, -48); (115, -0x1b051cc2a499c3, -50); (117, -0x18bf7f271bee33, -50); (120, -0xe81730f02424b, -49); (122, -0x10a12d497c3659, -50); (124, -0x1299de414745e3, -49); (125, -0x2c7d7fa6f73e5, -48); (127, -0xe417c806b4b8f, -50); (128, -0x1c69c745380a41, -50); (129, -0x1678be6f90bb2b, -50); (130, -0x15b9f02e243097, -52); (131, -0x1892f7caa55aa9, -50); (132, -0xb6f1b42bcbde3, -49); (133, -0x155fa6a1268d21, -49); (134, -0xe617063f11eed, -49); (135, -0x833b078f8d2c1, -48); (138, -0x1610b9e71061a5, -50); (141, -0x155fa6a1268d21, -49); (142, -0x17d674e81996e7, -50); (143, -0x11a5f20b2f6f45, -50); (145, -0x44dbe8455e891, -47); (152, -0x60495b4696bdb, -49); (153, -0x9fe61389b74c1, -48); (156, -0xbe23ee2b46e7f, -49); (157, -0x155fa6a1268d21, -49); (162, -0x76dc0b3354337, -48); (400, -0x1db8a0541b6d6b, -51); (401, -0x9fe61389b74c1, -48); (402, -0x1aa5577722adf3, -50); (403, -0x155fa6a1268d21, -49); (404, -0xd499bd04fbff5, -49); (406, -0x9ccc26a79fec5, -49); (407, -0xbfc72eb9e54f, -46); (409, -0x849f6d9a35fa7, -48); (410, -0x8bdac25b020eb, -48); (412, -0x1103f89c7f55ab, -50); (413, -0x156f8e7d14bf19, -50); (414, -0x1018741b709e37, -49); (417, -0x9f90616e5bd11, -49); (419, -0x1ab7cae8921b5, -46); (422, -0x1258933f64b8cf, -50); (423, -0x1299de414745e3, -49); (425, -0x5506a1ee668f1, -49); (426, -0x1cb1bf798f21a7, -51); (427, -0x1447ba6a96b803, -50); (431, -0x155fa6a1268d21, -49); (433, -0x11ca4521e14921, -49); (434, -0x15ed61776213f9, -51); (435, -0x1cf13e5d1bb69b, -51); (438, -0x46ed863c6c6c5, -48); (439, -0x155fa6a1268d21, -49); (443, -0x155fa6a1268d21, -49); (444, -0x1fed9b7ecf567, -47); (445, -0xa2799f13e3e61, -49); (446, -0x1b051cc2a499c3, -50); (447, -0x103e65965a2a0d, -49); (448, -0x83ccb85805cc9, -49); (449, -0x10c10f954c6007, -50); (450, -0x1c69c745380a41, -50); (451, -0x44dbe8455e891, -47); (452, -0x4171889ed8a51, -49); (454, -0x12c2ef529a8115, -50); (456, -0x155fa6a1268d21, -49); (459, -0x1a2cbb596a0227, -50); (460, -0x1a81687c86d3f5, -50)]);
  (445, [(100, -0x81f23ec079cab, -49); (101, -0xd6867510ab2bd, -49); (103, -0x1fc6d61609a35d, -50); (104, -0x12056b45444947, -50); (106, -0x295029d45c9db, -47); (107, -0x1271dd37ce043d, -50); (108, -0xb1465453c9f55, -48); (112, -0x2f015be7dbb2b, -47); (115, -0x19451dc20335a7, -50); (116, -0x178baeba68e249, -49); (117, -0x5d4261d88c80d, -48); (120, -0x16c6af8e753e53, -50); (122, -0x1cbcdc00c72d77, -51); (124, -0x829723f6d182d, -48); (125, -0x66f3a4d677a51, -50); (127, -0x10cb8b009fbeb1, -50); (128, -0x10316aa580ad2f, -49); (129, -0x1a894cd4a8da7d, -50); (130, -0x9547897e70ded, -49); (131, -0x1ee25657ccce8b, -50); (132, -0x63ac6bd809155, -48); (133, -0x150a4494923a9d, -49); (134, -0x18b47aa1d842ff, -50); (135, -0x1d5821a97f7f7f, -50); (138, -0x10bdf587f1e915, -50); (140, -0x31dd25d4b10bd, -46); (141, -0xadb4555ad6a21, -48); (142, -0x5d5284d055e4d, -48); (143, -0x2af283f848de7, -47); (145, -0x1e74ab3596191f, -50); (152, -0x110901303c03ed, -51); (153, -0x130b0568d7591d, -49); (156, -0x8588860e9ab97, -49); (160, -0xa44cc25d6a293, -48); (162, -0x1e45c283a9b365, -50); (400, -0xf42db649b590b, -50); (401, -0x16bc159b02e587, -49); (402, -0x1cb5f65bbba767, -50); (403, -0x1326b41bbda187, -49); (404, -0xd9b235bff130b, -49); (406, -0x13d937008b3075, -50); (407, -0xd752e7d8ed147, -50); (409, -0xf3e59a0286ec7, -49); (410, -0xadb4555ad6a21, -48); (412, -0x11ff02040cd2d3, -50); (413, -0x1a1d1c5702775d, -50); (414, -0xf8c9a90d7db65, -49); (417, -0x9ce37165dfdd9, -49); (419, -0x1059dbd0c76df5, -49); (422, -0xea9ad410af489, -50); (423, -0x178baeba68e249, -49); (425, -0x125ed90206b703, -51); (426, -0xbc4aa1ba18fc7, -50); (427, -0xb58e4bf22369, -45); (433, -0x16bc159b02e587, -49); (434, -0x1c3b6914f27b6f, -51); (435, -0x1e547d7fe14693, -51); (438, -0x7eb89a897cd15, -49); (444, -0x1949806e948e33, -50); (445, -0x59071354815cd, -48); (446, -0x6ce75a19747c5, -48); (447, -0xe783f0bfa1837, -49); (448, -0x133b9b3ba7dcdb, -50); (449, -0x1a54a02aa784e3, -50); (450, -0x1f17a6868b449, -47); (451, -0x1390463c3815f, -46); (452, -0x2131728c747df, -48); (454, -0x87728027d1031, -49); (456, -0x4aa4cdab9063b, -47); (459, -0x85ae73a67a7f1, -48); (460, -0xfa4a54fbd37f7, -49); (463, -0x31dd25d4b10bd, -46)]);
  (446, [(100, -0x19370204103b8d, -51); (101, -0x178bd652e6c399, -50); (103, -0x8c2fc6a59a48b, -48); (104, -0xda1aa7eecfdcb, -49); (106, -0x32c76c87672dd, -47); (107, -0x5ee882c0e898f, -49); (108, -0x98cd4c1cab2a1, -48); (110, -0x138be962b3cfab, -49); (112, -0x17d820b6df9ea7, -50); (115, -0xcb9992b529451, -50); (117, -0x7195fafd7f9e1, -48); (120, -0x8df179828de1b, -49); (122, -0xf1ea53aa64e79, -50); (124, -0x7c224022810a1, -48); (125, -0x160ae070276a91, -51); (127, -0x7e43eb86a8203, -49); (128, -0x7b19e69727267, -48); (129, -0xc958448d95e8f, -49); (130, -0x159a45f9377635, -50); (131, -0x2578a0869ba5d, -46); (132, -0x1a0f884fef91ef, -50); (133, -0x18c24cc8528f55, -50); (134, -0x1c53fd8b5f0459, -50); (135, -0x10c62102d4886d, -49); (138, -0xdab2b48d5725d, -50); (141, -0x48a414cb10b03, -47); (142, -0x578fb4358e843, -48); (143, -0x173b160585bbd7, -50); (145, -0x10c62102d4886d, -49); (152, -0x140b0a44d80457, -51); (156, -0x18843866d26c8f, -50); (157, -0x1651b1c29316e9, -49); (160, -0x936b1b66665cf, -48); (162, -0x1dfaac5291f935, -51); (400, -0xbb37746c30ef9, -50); (402, -0xe0868ce218adb, -49); (404, -0x40eb9875dcacf, -47); (406, -0x564f550dfe4c7, -48); (407, -0x1031b2486e1995, -51); (409, -0xe891517068053, -49); (410, -0x8f65b91f3eb13, -48); (412, -0x11abe3221a5ff, -46); (413, -0xdc40a9418eb49, -49); (414, -0xa7766c951b9a5, -48); (417, -0x17770b6b8e604b, -50); (419, -0x10c62102d4886d, -49); (422, -0x1a1ffa54e3398d, -51); (423, -0xa7766c951b9a5, -48); (425, -0xcbf3b028a3055, -50); (426, -0x137ab8524d65, -42); (427, -0x176ccdf552dbe1, -50); (433, -0x1b02e8827f906d, -50); (434, -0x1bbd545256dae1, -51); (435, -0x4bc7ef78f0977, -48); (438, -0xd544b47fa6957, -50); (439, -0x1651b1c29316e9, -49); (444, -0x1b6c06ae2982b5, -50); (445, -0x1620b4692fdb81, -50); (446, -0xe7ebd14a80ffd, -49); (447, -0x54995c4c17cef, -48); (448, -0x99997b1a6338d, -49); (449, -0x73dfc24bc023d, -49); (450, -0x7c224022810a1, -48); (451, -0x15eae45a08b9cd, -50); (452, -0x1ea1e7d0285eb3, -52); (454, -0x1870561123986b, -50); (456, -0x1651b1c29316e9, -49); (459, -0x1f9b190fae206b, -50); (460, -0x32f9fe91c3681, -47)]);
  (447, [(100, -0x10d9235194ecf5, -50); (101, -0x32dc0ddafa21d, -47); (103, -0xf01523ec7ae9b, -49); (104, -0x17ee5749bf8f97, -50); (106, -0x9a323341c40cb, -49); (107, -0x11d34fc18f9305, -50); (108, -0x144884c47d9d85, -49); (112, -0x152096df45843f, -50); (115, -0xb489db6e5077d, -49); (117, -0x326ae04bcd57b, -47); (120, -0x17e65f3f24cb7d, -50); (122, -0x11d090362c960b, -51); (124, -0x1a585c5f734127, -50); (125, -0x8dfe64dcde749, -50); (127, -0xfd9c2c2b5d099, -50); (128, -0xebcf404bf0f09, -49); (129, -0xc7fe818f106ef, -49); (130, -0x1f3ffe9564161b, -51); (131, -0x1d9a6ac491ec9b, -50); (132, -0xb84ebc5c15d63, -49); (133, -0x144884c47d9d85, -49); (134, -0x1a3b838be62b09, -50); (135, -0x1d5a656e6fa5df, -50); (138, -0x5da20a756efb3, -49); (141, -0x203fb0695d655, -46); (142, -0xb2fa2b0a614b5, -49); (143, -0x11ddcbd909c84d, -50); (145, -0x5d9e6d57642c9, -48); (152, -0x66a9b250bebf7, -49); (153, -0x939b05ab7c7bf, -48); (156, -0x13a9df66281d5d, -50); (160, -0x939b05ab7c7bf, -48); (162, -0x6e22fc4e0cb69, -48); (400, -0xae4834753ebaf, -50); (402, -0x1ac43ffff76a2d, -50); (403, -0x56ada3d1b5049, -47); (404, -0xe0e6616c44ebb, -49); (406, -0x139415a81e36e9, -50); (407, -0x1e60022d6a62bb, -51); (409, -0x1dbbfe6c5496fb, -50); (410, -0x108a27e9a0de1, -45); (412, -0x23b8152c34f95, -47); (413, -0x7327ba17e385d, -48); (414, -0x972d04a46fcf3, -48); (417, -0xbc5a519336495, -49); (419, -0x1182bc649e5647, -49); (422, -0x1a50ae84a3c43b, -51); (423, -0x1378eba517a0c3, -49); (425, -0xb4eef65bc723d, -50); (426, -0x11e3144539917, -46); (427, -0x2769e2d4e916b, -47); (431, -0x56ada3d1b5049, -47); (433, -0x972d04a46fcf3, -48); (434, -0x466760967d82f, -48); (435, -0x104af82d7c5bcb, -50); (438, -0xaafd1cb744bed, -50); (444, -0xbfb2faa3d2a03, -49); (445, -0x187713bdd0cebb, -50); (446, -0x131580fff561b5, -50); (447, -0xf01523ec7ae9b, -49); (448, -0xb64fcb55c2291, -50); (449, -0xa2f9e3d2de029, -50); (450, -0x1ce53d71bd1e69, -50); (451, -0xa84862768e813, -49); (452, -0x1535786419d7fd, -51); (454, -0x1864f3e74da0b1, -50); (456, -0x144884c47d9d85, -49); (459, -0x48581dd49ff49, -47); (460, -0x2b11e9c53a97d, -47)]);
  (448, [(100, -0x3514241df9919, -48); (101, -0x17cf6e4328282f, -50); (103, -0xbfcf3b53e1571, -49); (104, -0x10f62d4367141, -46); (106, -0xa169121ecd159, -49); (107, -0x11a094cb7406f5, -50); (108, -0xb4bc013d9618d, -48); (110, -0x17d168fc0aeb43, -49); (112, -0x158055bd33d041, -50); (114, -0x16147674b30381, -49); (115, -0xb7fdeb832fbf7, -49); (116, -0xd1670d37c038d, -48); (117, -0x15f5423819c1cd, -50); (118, -0x39e5540dae9cb, -46); (120, -0x147f44d531a881, -50); (121, -0x18c9fd7708637b, -49); (122, -0x1b7dd350393e53, -51); (124, -0x1e30837192f263, -50); (125, -0x16e2f2f384d93b, -53); (127, -0x44c30b6c14553, -48); (128, -0x108e15b3b6919, -45); (129, -0xd03981e8531d9, -49); (130, -0x111a97c610170b, -50); (131, -0x6cf9eb7e8a3e3, -48); (132, -0x578cc57a87381, -48); (133, -0x9956717c7eb21, -48); (134, -0x1bb39b65145f63, -50); (135, -0x1d1690e6fd4dbf, -50); (138, -0x114d0380320cc7, -50); (140, -0x17d168fc0aeb43, -49); (141, -0x4ab48a9dad64d, -47); (142, -0x14ac57985f0169, -50); (143, -0xa8b572adf1c5b, -49); (145, -0x113fcf5444329d, -49); (152, -0x2651de10b33f, -44); (153, -0xf1640377d954d, -49); (156, -0x15eb739bf6eb41, -51); (160, -0x1648935131bbcf, -49); (162, -0x1accbca521003b, -50); (400, -0x1010021618a2af, -50); (401, -0xc2bdecbf4fc89, -48); (402, -0x1e0bfdb3e75c11, -50); (403, -0x2b73bf969138d, -46); (404, -0x185b0e263e5a61, -50); (405, -0x1b8fc5d6e7aab9, -49); (406, -0x16915b37030e3b, -50); (407, -0x1130e0ca0938bf, -50); (409, -0x14caf709f3b99b, -49); (410, -0x141006d75afcd3, -49); (412, -0xb31166c269683, -49); (413, -0xeac60aada58eb, -49); (414, -0x10967ee246f5af, -49); (417, -0x17c4ada8fdb5f, -46); (419, -0x100e74a3786d05, -49); (422, -0x126e204083baa7, -50); (423, -0x1826f118f78085, -49); (425, -0xc77ccbe931bcd, -50); (426, -0x15a52c2e7c5f99, -50); (427, -0x17b1aef1fd630f, -50); (431, -0xd60165bc0d6fb, -48); (433, -0x9cd1680bbd555, -48); (434, -0x14c4ee8983fca5, -50); (435, -0x1509094e58e8df, -50); (438, -0x11e541cb86277f, -50); (439, -0x5d9c651c62ff7, -47); (443, -0x1b8fc5d6e7aab9, -49); (444, -0x1ff9c3407638b9, -50); (445, -0xfe99dd150d50b, -49); (446, -0x9cf7dde6f8dc7, -48); (447, -0x8edc443ad18b, -44); (448, -0x1fdc5946dc94fd, -50); (449, -0xe954cc54d7fa1, -49); (450, -0x1ea33c852aedfb, -50); (451, -0x9f0fc92aeb19, -44); (452, -0xda0942ad71eb, -46); (454, -0xd011d6301b1af, -49); (456, -0x12e66ff58736b, -45); (459, -0x12328589078257, -49); (460, -0x1b00da75c1278b, -50)]);
  (449, [(100, -0xe778e9fe84a9d, -50); (101, -0xb97cbee37ac17, -49); (103, -0x1d8ec992cebf99, -50); (104, -0x13f8dd678a93af, -50); (106, -0x858ab6a4c98f9, -49); (107, -0x1d6b9c2f53d2bd, -51); (108, -0x13a2669a8002e9, -49); (110, -0x28781bd347d65, -46); (112, -0x1495f429c55bfd, -50); (115, -0x550b910e5f2d7, -48); (117, -0x57acac0d4cae9, -48); (118, -0xc6b7d2c48a037, -48); (120, -0x29c9dd5fd5, -35); (121, -0xb80eb24c19933, -48); (122, -0x7c3a0b047819d, -50); (124, -0x190b0aca586f2d, -50); (125, -0xe38eb66b4b0b9, -51); (127, -0x1aea035ad7a017, -51); (128, -0xe055bf91d5015, -49); (129, -0x18550bd8f39a33, -50); (130, -0x7789b9cf3c7c7, -49); (131, -0x195c1aaf374d4d, -50); (132, -0x2b6946ce70fab, -47); (133, -0x11139e040e3e11, -49); (134, -0xb9a2efd6b5175, -49); (135, -0xe63654727b197, -49); (138, -0xc05f648c77bbd, -50); (140, -0xb80eb24c19933, -48); (141, -0x10e1618321405f, -49); (142, -0x1392df6f899e4b, -50); (143, -0xfca1b23bccfd1, -50); (145, -0x7244aa692b14d, -48); (152, -0x14a38f8817750d, -51); (153, -0x8cba85d97f02f, -48); (156, -0x11de7a5b29a33b, -50); (160, -0x91fc135482fa5, -48); (162, -0x192aecab526921, -50); (400, -0xf83907c6daa89, -50); (401, -0x17741628a19ccf, -49); (402, -0x1ec096f813b66f, -50); (403, -0x17741628a19ccf, -49); (404, -0xd22a67668d947, -49); (406, -0x9d9f8d7e120f7, -49); (407, -0x1a6939b121075f, -51); (409, -0x127bd0796cb53, -45); (410, -0xf671b430c66a7, -49); (412, -0x55f531598e643, -48); (413, -0xe43629c168e39, -49); (414, -0x11c201b9b6d6af, -49); (417, -0x164e807a68fa23, -50); (419, -0x115d4a8385b123, -49); (422, -0xe189ee63782ad, -50); (423, -0x154198d94bfc6d, -49); (425, -0xdb0d053e87339, -50); (426, -0x50a104dcba467, -48); (427, -0x1401bd192cccb5, -50); (431, -0x17741628a19ccf, -49); (433, -0x2366c11cdcf15, -46); (434, -0x1f927fdd8ecd1d, -51); (435, -0xfaf4345d8c311, -50); (438, -0x9e57a048db8af, -50); (439, -0xb80eb24c19933, -48); (444, -0x74381eaf6e429, -48); (445, -0x1a7a2275b8083, -46); (446, -0x1e398bee57cda5, -50); (447, -0x10008811dfce2d, -49); (448, -0x15405f1e569013, -50); (449, -0x8d293b777e60d, -48); (450, -0x1e4d821cc25299, -50); (451, -0x1301144cf2321d, -49); (452, -0x1724be33254993, -51); (454, -0x6513be496d63b, -48); (456, -0x14cf58fa2d9205, -49); (459, -0x11e88568e30e53, -49); (460, -0x9e3bfd6b7fafb, -49); (463, -0x1a39de8880e40d, -49)]);
  (450, [(100, -0x12831d6ef19865, -50); (101, -0x17ae9ff7e70fa5, -50); (103, -0x8626713fc3e61, -48); (104, -0x1b110c56bad8b5, -50); (106, -0x16ce7e1c9f879, -46); (107, -0x84e2e5493e0bb, -49); (108, -0x15bd13d72d6461, -49); (110, -0x12850b982fb2bb, -49); (112, -0x17def409224449, -50); (115, -0x15ddd038b2dce3, -50); (117, -0x1e020b4873c9b3, -50); (120, -0x184b43f6db9177, -50); (122, -0x4b95a4a681479, -48); (124, -0x8ec62c0b38c8b, -48); (125, -0x66575c38b7575, -49); (127, -0x1475e581ee5e41, -50); (128, -0x113c6a859bdb35, -49); (129, -0x3e68f0065f33f, -47); (130, -0x15b0b228d5f3f9, -50); (131, -0x9f3f7e40fab2d, -48); (132, -0x1b856f7279bf3d, -50); (133, -0x1ed962f67197a5, -50); (134, -0x17798e5678b213, -50); (135, -0xf61e9f808d923, -49); (138, -0x15ac4aa81d9263, -50); (142, -0x19ffd724ab174f, -50); (143, -0x163bf51591a9a9, -50); (145, -0x10afe78921a4b3, -49); (152, -0x11bb33b58943e1, -52); (153, -0x44889da1003c7, -47); (155, -0x14ed7ab7c7679f, -49); (156, -0x10834216a0d435, -50); (160, -0x15bd13d72d6461, -49); (162, -0x1b0042ccc77917, -50); (400, -0x93f913432a319, -49); (401, -0xa2d17d39ee061, -48); (402, -0x74224cdcf5939, -48); (403, -0x9f3f7e40fab2d, -48); (404, -0x1f987359f60915, -50); (406, -0x4d977b761209, -44); (407, -0x1cb6da652f9643, -51); (409, -0x4e2a5a1f5f1, -39); (410, -0x1e5e5bda28f1ab, -50); (412, -0x24bfab7be68ed, -47); (413, -0xe76a225bc93f7, -49); (414, -0x4e2a5a1f5f1, -39); (417, -0x185809fe84ef67, -50); (419, -0x37e6de0aa9881, -47); (422, -0x1394f9558cbf9d, -50); (423, -0x15bd13d72d6461, -49); (425, -0x1fb96f851c2a05, -51); (426, -0xff070cfe9b1f1, -50); (427, -0x18767a88b53b37, -50); (433, -0x8626713fc3e61, -48); (434, -0x29c7b6b0700a7, -48); (435, -0x10d07eb0455d19, -50); (438, -0x13d8472ff4d1d3, -50); (444, -0x74224cdcf5939, -48); (445, -0x5cdb4a092d619, -48); (446, -0x46519d1d79e61, -47); (447, -0xe5602c9c6867b, -49); (448, -0x8ccd24354d755, -49); (449, -0x1dce672327a3f3, -50); (450, -0x1cd2aafa16c1d7, -50); (451, -0x1227b257e82061, -49); (452, -0x12e732d5787319, -52); (454, -0xb117d816de419, -49); (456, -0x2e3ff00e3a1, -38); (459, -0x1158193882239f, -49); (460, -0xe8b40ed8bf00d, -49)]);
  (451, [(100, -0x1d7a7702843ab9, -51); (101, -0x19331094f67193, -50); (103, -0xe1e16a48b758b, -49); (104, -0x160dcd654f4db1, -50); (106, -0x15a146ff3575e7, -50); (107, -0x1e657aa776dbed, -51); (108, -0x9356614018bf1, -48); (110, -0x9bf61c0b8da1b, -48); (112, -0x15ee7c2282927f, -50); (114, -0x176311d737ff81, -49); (115, -0xa48eaa39709ab, -49); (117, -0x64b9aedf67e47, -48); (120, -0x161a9a3d085f27, -50); (122, -0x503eb0f9fc5a5, -49); (124, -0x1b45eff44d369f, -50); (125, -0x197dc80cad5ee7, -52); (127, -0x1a4b56ffa6c7af, -51); (128, -0x1b5da90f550c5, -46); (129, -0x5fff07daba845, -48); (130, -0x12cc5a1d93ff71, -50); (131, -0x1e549ac35d92f5, -50); (132, -0xc1a69cc0e7f53, -49); (133, -0x1ef810d918aa5d, -50); (134, -0x1cf4e3438641bb, -50); (135, -0x38de43eeef153, -47); (138, -0x18fcf81cc70b8d, -51); (140, -0xb0016d3a42df1, -48); (141, -0x1f8c1df31e1a2f, -50); (142, -0x133949199ce00d, -50); (143, -0x13d5eae2a200e3, -50); (145, -0x105592b6c9bc03, -49); (152, -0x15702fb035cf65, -51); (153, -0x13cdb057f2bb81, -49); (156, -0xa793420df05d7, -49); (157, -0x176311d737ff81, -49); (160, -0x4ce9951da4529, -47); (162, -0xa0678db32886f, -49); (400, -0xed12d39728999, -50); (402, -0x1cf4e3438641bb, -50); (403, -0x149d497758b843, -49); (404, -0x1acfefb8ab9113, -50); (406, -0x2d439cdf9d851, -47); (407, -0xdcea2a5f67a77, -50); (409, -0x11d78117797105, -49); (410, -0x10cb99e9371e5d, -49); (412, -0x1634b16d80c545, -50); (413, -0x1b10a1b0fc9d09, -50); (414, -0x97f0b9c465f5f, -48); (417, -0x174635d702e59, -46); (419, -0x121bdf51821097, -49); (422, -0x11c1232861e0f7, -50); (423, -0x15309487e25f1f, -49); (425, -0x157c3012790643, -51); (426, -0x13de79f3ce6bef, -50); (427, -0x13dfb476599219, -50); (433, -0x102a479ba94d91, -49); (434, -0xf08d4b5a9377d, -50); (435, -0x7f6c1b15dfab7, -49); (438, -0x26b7e7aa2e3af, -48); (444, -0x1e9a0e0cc264a9, -50); (445, -0x6615aa73f1a57, -48); (446, -0x102a479ba94d91, -49); (447, -0x1f8c1df31e1a2f, -50); (448, -0xf28db55ed464f, -50); (449, -0x1420666eaa9e0f, -50); (450, -0x11d78117797105, -49); (451, -0x121bdf51821097, -49); (452, -0x11ea2e8828624f, -51); (454, -0x18615af493922f, -50); (456, -0xa1584cc1d26ed, -48); (459, -0x111db257c39285, -49); (460, -0x13a52cba210913, -50)]);
  (452, [(100, -0x10fa25e397b197, -50); (101, -0xbe7af79c82837, -49); (103, -0x1f019ad917099, -46); (104, -0x2bcc3d5b1983f, -47); (106, -0x1452addc4fe129, -50); (107, -0x10639c34889a01, -50); (108, -0x4568ded6d59af, -47); (110, -0xa3d2568262abd, -48); (112, -0x59555008c2e49, -48); (114, -0xe7cc2ca7ffb05, -48); (115, -0x2b7e225c01e85, -47); (116, -0x1b246185f1e803, -49); (117, -0xbf25c23937a67, -49); (118, -0x1e5c69c4ef99a9, -49); (120, -0x16a7dab01c3b7d, -50); (121, -0xe7cc2ca7ffb05, -48); (122, -0x688096fceb55f, -49); (124, -0xf2d6145452fcf, -49); (125, -0x1088b992a9070f, -51); (127, -0x1d267d66cb3b05, -51); (128, -0x7985fe76413d5, -48); (129, -0x186e0b0d47c4e7, -50); (130, -0x1ea909abdcef39, -51); (131, -0x19c38a80aad265, -50); (132, -0xb6376df0d5e49, -49); (133, -0x122c8164731fc1, -49); (134, -0x16c06bf214c12f, -50); (135, -0x1cd77eeefdae2b, -50); (138, -0x1c31d67496f3, -43); (140, -0xc3c6e21b7366f, -48); (141, -0x94d8197aa870f, -48); (142, -0xade011cb7d663, -49); (143, -0x1254fa0c214729, -50); (145, -0x1e6f1c32d02315, -50); (152, -0x12f092ab858c3, -47); (153, -0x1f136486ecc085, -50); (156, -0x12fc80a966b8c1, -50); (157, -0xb715cf7f2052f, -48); (160, -0x931084f294099, -48); (162, -0xda70f9991d94d, -49); (400, -0x77cf870225caf, -49); (401, -0x12b27d44eb81, -41); (402, -0x1b648ae5db534f, -50); (403, -0xa0e78c802619, -44); (404, -0x188cedf1e139d5, -50); (405, -0x1915373f39aabf, -49); (406, -0x14028bb4b86d67, -50); (407, -0x1b4d6776c1c567, -51); (409, -0x80c153370d519, -48); (410, -0x10b91fc113119b, -49); (412, -0x86c9dbef2fbf9, -49); (413, -0x16bccc7d81ae3b, -50); (414, -0x47919458b8109, -47); (417, -0x2808ac97946a3, -47); (419, -0x1c5c411e71cb47, -50); (422, -0x1fd0a839870315, -51); (423, -0x1503ecbf8ff5fb, -49); (425, -0x5e7a829d48809, -49); (426, -0xfd9d2fa3f580b, -50); (427, -0x9d4db8cab5397, -49); (431, -0xcfbb793222c73, -48); (433, -0x8b287f614d593, -48); (434, -0x183faac0c194bd, -51); (435, -0xed3bd88cdf3ef, -50); (438, -0xc0e7c250e6cb, -46); (439, -0xae3d955af40db, -48); (443, -0x18948af654b547, -49); (444, -0xdafd033924ae3, -49); (445, -0x15ce6fd088455b, -50); (446, -0x966b013162f17, -49); (447, -0x150bc0ea58e1e1, -50); (448, -0xf590ba8005f87, -50); (449, -0x60e42e8f637cd, -49); (450, -0x1a25e8dbd8f0d5, -50); (451, -0x7e88e6c5cd447, -49); (452, -0x8103158c5b939, -50); (454, -0x140ecc1287c97b, -50); (456, -0x94721e8108fd1, -48); (459, -0xe0f8578d7f469, -49); (460, -0x2c3d80556141f, -47); (461, -0xe7cc2ca7ffb05, -48); (463, -0x1b246185f1e803, -49)]);
  (453, []);
  (454, [(100, -0x13107ebe0f07f9, -50); (101, -0xe1b24e1db0b7b, -49); (103, -0x46f01fc428b35, -47); (104, -0x17b8551254f4bd, -50); (106, -0x14bc7bf8347c0f, -50); (107, -0x230fc81b324f9, -47); (108, -0x14b29ccfdbec9f, -49); (110, -0x56e09efe0ff79, -47); (112, -0x17a9a22ca9a145, -50); (115, -0x17eae9160827cb, -50); (117, -0x1860ee62973cb, -46); (120, -0x192e6b010056d, -46); (122, -0x801499d619f35, -49); (124, -0x8a996906c5e91, -48); (125, -0x11205a05a04c1, -47); (127, -0x19929a8388d313, -51); (128, -0x1c110c346cb42d, -50); (129, -0x1703d286a1bc13, -50); (130, -0x112a9947bb9b19, -50); (131, -0x1e4e18203abc47, -50); (132, -0xb709f5f6cddaf, -49); (133, -0x8d2a2c7b298a5, -48); (134, -0x396eef2252cc7, -47); (135, -0x206ebd05eac43, -46); (138, -0x12da7828c770a7, -50); (141, -0x1687c0dee9faa7, -49); (142, -0x5ae055954c80f, -48); (143, -0x255da7a3987f1, -47); (145, -0xfa98d4cc5afd, -45); (152, -0x2f2375c548d8b, -48); (153, -0x13c1f87f0ab369, -49); (155, -0xbf552876ccf23, -48); (156, -0x1589d74d6565b7, -50); (157, -0xbf552876ccf23, -48); (160, -0x12c964040d3b31, -49); (162, -0x1bed1d39d0da2f, -50); (400, -0x1cd907d8533be3, -51); (401, -0x13c1f87f0ab369, -49); (402, -0x2916b801a9e69, -47); (403, -0x4a8dca248ebd7, -47); (404, -0xc4e6a6848e4c7, -49); (405, -0x1687c0dee9faa7, -49); (406, -0x86b6ee7df97d5, -49); (407, -0xd048f04c852f3, -50); (409, -0xeaaa89f15ba67, -49); (410, -0x83ea5debaf999, -48); (412, -0x10a1ec2b080485, -50); (413, -0x1fe735d3b1bc61, -51); (414, -0xf7a41be7bb729, -49); (417, -0x10e02f89850d1f, -50); (419, -0x16e946c9947fcd, -50); (422, -0x1085c95ff12801, -50); (423, -0x8a996906c5e91, -48); (425, -0x12d8353e18919, -47); (426, -0x14d316d7474e19, -51); (427, -0x1101b7c7c19b47, -50); (431, -0x1687c0dee9faa7, -49); (433, -0x1d7e4866bac821, -50); (434, -0x1b0bc9576e81a9, -51); (435, -0x1bdd1af2ab8417, -51); (438, -0xd48b5c356e865, -50); (439, -0x8d2a2c7b298a5, -48); (443, -0xbf552876ccf23, -48); (444, -0x15814bb7cf4221, -50); (445, -0x1142da922b778b, -50); (446, -0xba0d25bcb5f77, -49); (447, -0x19617242fe74b, -46); (448, -0x85bfc7284baf, -45); (449, -0x105cfb31525ebd, -50); (450, -0x5e3ce308d1753, -48); (451, -0x28bd3beea24ab, -47); (452, -0xf8c41ff316001, -51); (454, -0xf68d62184b523, -50); (456, -0x1064e909546341, -49); (459, -0x51a56753e119f, -48); (460, -0x17eae9160827cb, -50); (461, -0x56e09efe0ff79, -47); (463, -0x2a49b95df4ae1, -46)]);
  (455, []);
  (456, [(100, -0x576610cff4401, -48); (101, -0x1ea37971539189, -50); (104, -0x1a3e7ed2a850c7, -50); (106, -0x4d390e4159473, -48); (107, -0x209be6e87d031, -47); (112, -0x16522051b5bbd, -46); (115, -0x16dadcc5c6faf3, -50); (117, -0x1ea37971539189, -50); (122, -0x14151465e7b3b5, -50); (125, -0x37ca448daee4f, -49); (127, -0x1fc41fa774b105, -51); (128, -0x60cda3cd60b8f, -48); (129, -0x9c62bf8eb3a49, -49); (130, -0x1778b672c90989, -50); (132, -0x1917e8b195030d, -50); (134, -0x1917e8b195030d, -50); (138, -0x11ed25b30a7b0d, -50); (142, -0x150c079593f5e3, -50); (143, -0x14b2ee12e9c24b, -50); (152, -0x18330617f4fb3b, -51); (156, -0x16522051b5bbd, -46); (162, -0x1bddb111744a4b, -50); (400, -0x6c4158a2f9d25, -49); (401, -0x1bddb111744a4b, -50); (402, -0xab6d049bc737f, -49); (404, -0x16522051b5bbd, -46); (406, -0x171c962f5a41a5, -51); (407, -0x172e043cc893b7, -51); (409, -0x1ea37971539189, -50); (412, -0x1b8565a12f86a1, -51); (413, -0x4d390e4159473, -48); (417, -0x4d390e4159473, -48); (419, -0x1a3e7ed2a850c7, -50); (422, -0x1218ba726ab791, -50); (425, -0x6fed19135b9dd, -50); (426, -0xd7a0b3e3161a3, -50); (427, -0x4d390e4159473, -48); (434, -0x1d5d826ae51007, -51); (435, -0x442297d33698f, -48); (438, -0x3b0794f509ccd, -48); (444, -0x1a3e7ed2a850c7, -50); (445, -0x229e980c10d8f, -47); (446, -0x1bddb111744a4b, -50); (447, -0x1bddb111744a4b, -50); (448, -0x1d37ee2f31252d, -51); (449, -0x1a3e7ed2a850c7, -50); (450, -0x1ea37971539189, -50); (451, -0x1ea37971539189, -50); (452, -0x11c5c329201a0d, -51); (454, -0x11c358755ccaf, -46); (456, -0x16522051b5bbd, -46); (459, -0x1917e8b195030d, -50); (460, -0x60cda3cd60b8f, -48)]);
  (457, []);
  (458, []);
  (459, [(100, -0x161c3a2efa879f, -50); (101, -0x7b98bdb144249, -48); (103, -0x93a97127210db, -48); (104, -0x1a8134cda5c861, -50); (106, -0x17a8a24fec8bb7, -50); (107, -0x137d1735a4f543, -50); (112, -0x18eebb0c0e51a3, -50); (115, -0x1ad003adb0c41, -46); (117, -0x13d81254d3c555, -49); (120, -0xe90dfcf1dd66b, -49); (122, -0xa44e036b1887, -45); (124, -0x11a595057e24f3, -49); (125, -0xcdc50f13d9c21, -50); (127, -0xe63ffe8292c39, -50); (128, -0x111249f4f47e17, -49); (129, -0x16c06b0c136fef, -50); (130, -0x17e211d4503605, -50); (131, -0x93a97127210db, -48); (132, -0x1c5aeec8aa4aed, -50); (133, -0x111249f4f47e17, -49); (134, -0x1e18b2cde7ef03, -50); (135, -0x1f5ecb8a09b4f, -46); (138, -0x160fa9a700ed45, -50); (142, -0xc24cbc8ef8927, -49); (143, -0x197777801f90c7, -50); (145, -0x1d6da2940ec481, -50); (152, -0x1c7fe10f9b87e3, -51); (156, -0x19234146c5e9d5, -50); (162, -0xe4c81951536d9, -49); (400, -0x1b4530efe18e8b, -51); (401, -0xe90dfcf1dd66b, -49); (402, -0x83eefa8b101db, -49); (403, -0x13d81254d3c555, -49); (404, -0x165d78e6e6a297, -50); (405, -0x1f5ecb8a09b4f, -46); (406, -0x136995d6eb2b91, -50); (407, -0xe605600a273cf, -50); (409, -0x1af9d0eb5e742d, -50); (410, -0x1b828d5f6fb351, -50); (412, -0x983b3811216bd, -49); (413, -0x123393638d5291, -51); (414, -0x11a595057e24f3, -49); (417, -0x7b9ccef94da69, -49); (419, -0x18761eee55a5d7, -50); (422, -0x9673fda4761bf, -49); (423, -0x1b2565aabeb0b1, -50); (425, -0x1366018b772335, -51); (426, -0x4f583ecd987d5, -49); (427, -0x197fd7bbb31915, -51); (433, -0xb51945ac159f, -45); (434, -0x1e5388da097dd1, -51); (435, -0x1b483b63d971cd, -51); (438, -0x10fb25b6c6cc47, -50); (439, -0x1aa7da342f7d43, -50); (444, -0x1686b676855ac3, -50); (445, -0x1428276f7e1fc5, -50); (446, -0xe90dfcf1dd66b, -49); (447, -0x850050aeb09d7, -48); (448, -0x106251b0c8c68b, -50); (449, -0x18761eee55a5d7, -50); (450, -0x17a8a24fec8bb7, -50); (451, -0x197777801f90c7, -50); (452, -0x1b521fa164b179, -52); (454, -0x302e233b8c85d, -48); (456, -0x93a97127210db, -48); (459, -0xb06ad8a8b30d5, -50); (460, -0x5511cbb7c8d65, -48); (461, -0x13d81254d3c555, -49); (463, -0x111249f4f47e17, -49)]);
  (460, [(100, -0xa11f4b38e5f51, -49); (101, -0xd287893658b1, -45); (103, -0x4508a2709c145, -47); (104, -0xc84f648e7e29f, -49); (106, -0xd8b1a443eaefd, -50); (107, -0x19f75b95911f1b, -51); (108, -0xf4713122f6b37, -49); (110, -0x1fe6b251f009b7, -50); (112, -0xb5c8985003275, -49); (115, -0x2f5e8c374ecc3, -47); (117, -0x64fb584ef595b, -48); (120, -0x4fe6041c0a461, -48); (122, -0x42239726b8da9, -48); (124, -0x6c99612d00cbb, -48); (125, -0x9134bd8c69073, -50); (127, -0x1587baadc3b717, -51); (128, -0x1a5b2192317b3b, -50); (129, -0xbaf42e7232f2b, -49); (130, -0x4817ccfc14131, -48); (131, -0x172f1b5750ca6b, -50); (132, -0x12986329b6bac5, -50); (133, -0x1c1440ba52a6db, -50); (134, -0x589c5bf2bc9d1, -48); (135, -0x1197b0b9139a55, -49); (138, -0x5b49c5539e897, -49); (141, -0x1fe6b251f009b7, -50); (142, -0x5cf468ec18d03, -48); (143, -0x1da7eb496cabdd, -51); (145, -0x1da3d0b268a62f, -50); (152, -0x16fbe0ad16c8cd, -51); (153, -0x9ced0a38a1075, -48); (156, -0x2d9373462bab9, -47); (157, -0x2cc6d34de6d05, -46); (160, -0x8ff37842413b3, -48); (162, -0xda641621b8f6f, -49); (400, -0xeb570d3a5010d, -50); (401, -0x1500857703c489, -49); (402, -0xd9974699ce6a3, -49); (404, -0xcb3305cc35107, -49); (406, -0x1165bbfecd65c3, -50); (407, -0xb826eef74cfbf, -50); (409, -0x88e1b909ebc9f, -48); (410, -0xb6b32593651e9, -49); (412, -0x577a221d0a529, -48); (413, -0xaebf124f13dd1, -49); (414, -0x85c675b3a6425, -48); (417, -0x1464b3785f9d33, -50); (419, -0x259c104f5c485, -46); (422, -0x8c37df4ba4a4d, -49); (423, -0x1500857703c489, -49); (425, -0x1ef67220f35ac3, -51); (426, -0x12d68f15c8a4a1, -50); (427, -0x10d3a2a936dc61, -50); (431, -0x995b0b3fadb41, -48); (433, -0x1b74278b25e83f, -50); (434, -0xf00838821323d, -50); (435, -0x1412bcc130a649, -50); (438, -0x34c1115e25a51, -49); (444, -0xc3cec78478467, -49); (445, -0x4accdfd4a313d, -48); (446, -0x37cc195a56043, -47); (447, -0x73e301e23deeb, -48); (448, -0x13c4e036771507, -50); (449, -0x185a565580909b, -50); (450, -0x17468a5247384f, -50); (451, -0x1fe6b251f009b7, -50); (452, -0x12f07f945efbbb, -51); (454, -0x16075cd624438b, -50); (456, -0x2cc6d34de6d05, -46); (459, -0x1a3cdce88dbc65, -50); (460, -0x11eb83c8efe6ab, -50)]);
  (461, [(125, -0xc14ea42e80ee9, -50); (129, -0x94f21e308c7ab, -50); (132, -0xedab2a2c75627, -50); (152, -0xedab2a2c75627, -50); (156, -0xedab2a2c75627, -50); (400, -0x94f21e308c7ab, -50); (407, -0xedab2a2c75627, -50); (413, -0xedab2a2c75627, -50); (417, -0x435511265f96d, -49); (422, -0xc14ea42e80ee9, -50); (425, -0xc14ea42e80ee9, -50); (426, -0xc14ea42e80ee9, -50); (427, -0xedab2a2c75627, -50); (434, -0xc14ea42e80ee9, -50); (435, -0x435511265f96d, -49); (438, -0xedab2a2c75627, -50); (444, -0xedab2a2c75627, -50); (452, -0x435511265f96d, -49)]);
  (462, []);
  (463, [(152, -0xedab2a2c75627, -50); (400, -0xedab2a2c75627, -50); (402, -0xc14ea42e80ee9, -50); (407, -0xedab2a2c75627, -50); (412, -0xedab2a2c75627, -50); (413, -0x435511265f96d, -49); (417, -0xedab2a2c75627, -50); (425, -0x14eb7008382ac9, -51); (426, -0x14eb7008382ac9, -51); (427, -0x14eb7008382ac9, -51); (433, -0xc14ea42e80ee9, -50); (435, -0xc14ea42e80ee9, -50); (444, -0xc14ea42e80ee9, -50); (452, -0x689598329806d, -50); (454, -0x94f21e308c7ab, -50); (459, -0xedab2a2c75627, -50); (460, -0xedab2a2c75627, -50)])
].

(** prob_start.go:3-260 probStart *)
Definition start_tab : list (Z * Z * Z) := [
  (100, -0x4c3266f3e43a5, -48);
  (101, -0x1ab8633b2c6ef9, -50);
  (102, -0x1cb63b5c484765, 281);
  (103, -0x1164e8179ae96f, -49);
  (104, -0x1412d0ba916035, -50);
  (105, -0x1cb63b5c484765, 281);
  (106, -0x1b641b4b5e6ded, -51);
  (107, -0x7f3396e08b78d, -49);
  (108, -0x8e393d0b06595, -48);
  (109, -0x1cb63b5c484765, 281);
  (110, -0x112089dd9249dd, -49);
  (111, -0x1cb63b5c484765, 281);
  (112, -0x15f76df6e46883, -50);
  (113, -0x1cb63b5c484765, 281);
  (114, -0x1b11153bfc191b, -49);
  (115, -0x1876904588e985, -50);
  (116, -0x1cb63b5c484765, 281);
  (117, -0xa1d804120ca31, -49);
  (118, -0x1cb63b5c484765, 281);
  (119, -0x1cb63b5c484765, 281);
  (120, -0x9cfcff92431eb, -49);
  (121, -0x1cb63b5c484765, 281);
  (122, -0x1d382d35d9aeaf, -51);
  (123, -0x1cb63b5c484765, 281);
  (124, -0x1b25d701f1f45f, -50);
  (125, -0xd92b0896cc7b1, -51);
  (126, -0x1cb63b5c484765, 281);
  (127, -0x8ec98439adf67, -50);
  (128, -0x177eb106a4a0ad, -50);
  (129, -0x13f14c5428051b, -50);
  (130, -0x16952f258ff4f7, -51);
  (131, -0x136265dab10bd7, -50);
  (132, -0xfc9b757cf7731, -50);
  (133, -0x86ef9c55c9365, -48);
  (134, -0x10cdcec8c947e9, -50);
  (135, -0x37fc285c9c9b7, -47);
  (136, -0x1cb63b5c484765, 281);
  (137, -0x1cb63b5c484765, 281);
  (138, -0xda3a788b5c5cb, -50);
  (139, -0x1cb63b5c484765, 281);
  (140, -0xc6f4bf6533c5d, -48);
  (141, -0x1fc8d2c19e667d, -50);
  (142, -0x585cdefbb23f7, -48);
  (143, -0x6bac03cecc4cf, -49);
  (144, -0x1cb63b5c484765, 281);
  (145, -0x929f67b922031, -48);
  (146, -0x1cb63b5c484765, 281);
  (147, -0x1cb63b5c484765, 281);
  (148, -0x1cb63b5c484765, 281);
  (149, -0x1cb63b5c484765, 281);
  (150, -0x1cb63b5c484765, 281);
  (151, -0x1cb63b5c484765, 281);
  (152, -0x156478c6b8b4eb, -51);
  (153, -0x90b73581269d, -44);
  (154, -0x1cb63b5c484765, 281);
  (155, -0xc6f4bf6533c5d, -48);
  (156, -0x115384c007ce3d, -50);
  (157, -0x184b4cdc1cd1dd, -49);
  (158, -0x1cb63b5c484765, 281);
  (159, -0x1cb63b5c484765, 281);
  (160, -0x2760c0da5ef93, -46);
  (161, -0x1cb63b5c484765, 281);
  (162, -0x1c2ec7077f80cb, -50);
  (163, -0x1cb63b5c484765, 281);
  (200, -0x1cb63b5c484765, 281);
  (201, -0x1cb63b5c484765, 281);
  (202, -0x1cb63b5c484765, 281);
  (203, -0x1cb63b5c484765, 281);
  (204, -0x1cb63b5c484765, 281);
  (205, -0x1cb63b5c484765, 281);
  (206, -0x1cb63b5c484765, 281);
  (207, -0x1cb63b5c484765, 281);
  (208, -0x1cb63b5c484765, 281);
  (209, -0x1cb63b5c484765, 281);
  (210, -0x1cb63b5c484765, 281);
  (211, -0x1cb63b5c484765, 281);
  (212, -0x1cb63b5c484765, 281);
  (213, -0x1cb63b5c484765, 281);
  (214, -0x1cb63b5c484765, 281);
  (215, -0x1cb63b5c484765, 281);
  (216, -0x1cb63b5c484765, 281);
  (217, -0x1cb63b5c484765, 281);
  (218, -0x1cb63b5c484765, 281);
  (219, -0x1cb63b5c484765, 281);
  (220, -0x1cb63b5c484765, 281);
  (221, -0x1cb63b5c484765, 281);
  (222, -0x1cb63b5c484765, 281);
  (223, -0x1cb63b5c484765, 281);
  (224, -0x1cb63b5c484765, 281);
  (225, -0x1cb63b5c484765, 281);
  (226, -0x1cb63b5c484765, 281);
  (227, -0x1cb63b5c484765, 281);
  (228, -0x1cb63b5c484765, 281);
  (229, -0x1cb63b5c484765, 281);
  (230, -0x1cb63b5c484765, 281);
  (231, -0x1cb63b5c484765, 281);
  (232, -0x1cb63b5c484765, 281);
  (233, -0x1cb63b5c484765, 281);
  (234, -0x1cb63b5c484765, 281);
  (235, -0x1cb63b5c484765, 281);
  (236, -0x1cb63b5c484765, 281);
  (237, -0x1cb63b5c484765, 281);
  (238, -0x1cb63b5c484765, 281);
  (239, -0x1cb63b5c484765, 281);
  (240, -0x1cb63b5c484765, 281);
  (241, -0x1cb63b5c484765, 281);
  (242, -0x1cb63b5c484765, 281);
  (243, -0x1cb63b5c484765, 281);
  (244, -0x1cb63b5c484765, 281);
  (245, -0x1cb63b5c484765, 281);
  (246, -0x1cb63b5c484765, 281);
  (247, -0x1cb63b5c484765, 281);
  (248, -0x1cb63b5c484765, 281);
  (249, -0x1cb63b5c484765, 281);
  (250, -0x1cb63b5c484765, 281);
  (251, -0x1cb63b5c484765, 281);
  (252, -0x1cb63b5c484765, 281);
  (253, -0x1cb63b5c484765, 281);
  (254, -0x1cb63b5c484765, 281);
  (255, -0x1cb63b5c484765, 281);
  (256, -0x1cb63b5c484765, 281);
  (257, -0x1cb63b5c484765, 281);
  (258, -0x1cb63b5c484765, 281);
  (259, -0x1cb63b5c484765, 281);
  (260, -0x1cb63b5c484765, 281);
  (261, -0x1cb63b5c484765, 281);
  (262, -0x1cb63b5c484765, 281);
  (263, -0x1cb63b5c484765, 281);
  (300, -0x1cb63b5c484765, 281);
  (301, -0x1cb63b5c484765, 281);
  (302, -0x1cb63b5c484765, 281);
  (303, -0x1cb63b5c484765, 281);
  (304, -0x1cb63b5c484765, 281);
  (305, -0x1cb63b5c484765, 281);
  (306, -0x1cb63b5c484765, 281);
  (307, -0x1cb63b5c484765, 281);
  (308, -0x1cb63b5c484765, 281);
  (309, -0x1cb63b5c484765, 281);
  (310, -0x1cb63b5c484765, 281);
  (311, -0x1cb63b5c484765, 281);
  (312, -0x1cb63b5c484765, 281);
  (313, -0x1cb63b5c484765, 281);
  (314, -0x1cb63b5c484765, 281);
  (315, -0x1cb63b5c484765, 281);
  (316, -0x1cb63b5c484765, 281);
  (317, -0x1cb63b5c484765, 281);
  (318, -0x1cb63b5c484765, 281);
  (319, -0x1cb63b5c484765, 281);
  (320, -0x1cb63b5c484765, 281);
  (321, -0x1cb63b5c484765, 281);
  (322, -0x1cb63b5c484765, 281);
  (323, -0x1cb63b5c484765, 281);
  (324, -0x1cb63b5c484765, 281);
  (325, -0x1cb63b5c484765, 281);
  (326, -0x1cb63b5c484765, 281);
  (327, -0x1cb63b5c484765, 281);
  (328, -0x1cb63b5c484765, 281);
  (329, -0x1cb63b5c484765, 281);
  (330, -0x1cb63b5c484765, 281);
  (331, -0x1cb63b5c484765, 281);
  (332, -0x1cb63b5c484765, 281);
  (333, -0x1cb63b5c484765, 281);
  (334, -0x1cb63b5c484765, 281);
  (335, -0x1cb63b5c484765, 281);
  (336, -0x1cb63b5c484765, 281);
  (337, -0x1cb63b5c484765, 281);
  (338, -0x1cb63b5c484765, 281);
  (339, -0x1cb63b5c484765, 281);
  (340, -0x1cb63b5c484765, 281);
  (341, -0x1cb63b5c484765, 281);
  (342, -0x1cb63b5c484765, 281);
  (343, -0x1cb63b5c484765, 281);
  (344, -0x1cb63b5c484765, 281);
  (345, -0x1cb63b5c484765, 281);
  (346, -0x1cb63b5c484765, 281);
  (347, -0x1cb63b5c484765, 281);
  (348, -0x1cb63b5c484765, 281);
  (349, -0x1cb63b5c484765, 281);
  (350, -0x1cb63b5c484765, 281);
  (351, -0x1cb63b5c484765, 281);
  (352, -0x1cb63b5c484765, 281);
  (353, -0x1cb63b5c484765, 281);
  (354, -0x1cb63b5c484765, 281);
  (355, -0x1cb63b5c484765, 281);
  (356, -0x1cb63b5c484765, 281);
  (357, -0x1cb63b5c484765, 281);
  (358, -0x1cb63b5c484765, 281);
  (359, -0x1cb63b5c484765, 281);
  (360, -0x1cb63b5c484765, 281);
  (361, -0x1cb63b5c484765, 281);
  (362, -0x1cb63b5c484765, 281);
  (363, -0x1cb63b5c484765, 281);
  (400, -0xf9c335cd988b5, -50);
  (401, -0x58633e331cc5f, -47);
  (402, -0x6f440cf4a4c1b, -48);
  (403, -0x66b8c43031d5f, -47);
  (404, -0xcf21e79dfcc45, -49);
  (405, -0x1cb63b5c484765, 281);
  (406, -0x1325da9fad0c19, -50);
  (407, -0x1f3b3a490af413, -51);
  (408, -0x1cb63b5c484765, 281);
  (409, -0x8f2ca303fef73, -48);
  (410, -0xbe291109411a1, -49);
  (411, -0x1cb63b5c484765, 281);
  (412, -0xa63bf7ad48a29, -49);
  (413, -0xd0401e057c365, -49);
  (414, -0x114d169ee763a9, -49);
  (415, -0x1cb63b5c484765, 281);
  (416, -0x1cb63b5c484765, 281);
  (417, -0x13a5e143205431, -50);
  (418, -0x1cb63b5c484765, 281);
  (419, -0x1bc2e366fb57c5, -50);
  (420, -0x1cb63b5c484765, 281);
  (421, -0x1cb63b5c484765, 281);
  (422, -0xd13a955f39a1f, -50);
  (423, -0x15a68fada8c713, -49);
  (424, -0x1cb63b5c484765, 281);
  (425, -0x1ed75809fa2005, -51);
  (426, -0x9d3adbbeeed33, -49);
  (427, -0x11ef4561771b4f, -50);
  (428, -0x1cb63b5c484765, 281);
  (429, -0x1cb63b5c484765, 281);
  (430, -0x1cb63b5c484765, 281);
  (431, -0x184b4cdc1cd1dd, -49);
  (432, -0x1cb63b5c484765, 281);
  (433, -0x10edcdd29de98f, -49);
  (434, -0x17e50c770a8bef, -51);
  (435, -0x138dfc865adb29, -50);
  (436, -0x1cb63b5c484765, 281);
  (437, -0x1cb63b5c484765, 281);
  (438, -0xb0ddbc5c8b5c1, -50);
  (439, -0x2919e0028024d, -46);
  (440, -0x1cb63b5c484765, 281);
  (441, -0x1cb63b5c484765, 281);
  (442, -0x1cb63b5c484765, 281);
  (443, -0x1cb63b5c484765, 281);
  (444, -0x191764085d8963, -50);
  (445, -0x1bc2e366fb57c5, -50);
  (446, -0x1ee9b52ad6bf39, -50);
  (447, -0xf142cb8dc904d, -49);
  (448, -0xdb47c3ff6a209, -49);
  (449, -0x4352ae3284b5b, -47);
  (450, -0x828785f16268d, -48);
  (451, -0x94c9c369905df, -48);
  (452, -0x186d2483e24657, -51);
  (453, -0x1cb63b5c484765, 281);
  (454, -0xbe2d3478ac8f9, -49);
  (455, -0x1cb63b5c484765, 281);
  (456, -0xb74345616971f, -48);
  (457, -0x1cb63b5c484765, 281);
  (458, -0x1cb63b5c484765, 281);
  (459, -0x436b5aff23e5, -43);
  (460, -0x18c9cf3358933d, -50);
  (461, -0x1b11153bfc191b, -49);
  (462, -0x1cb63b5c484765, 281);
  (463, -0x1cb63b5c484765, 281)
].
