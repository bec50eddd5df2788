(* The affine coordinates of the SIDH torsion bases (generated: x out of Montgomery form from the
   constants of SIDH_Consts.v, y a square root of x^3 + 6x^2 + x) and the computations that
   establish their orders.  The file is data; SIDH_Final.v ties the x to the constants. *)
From Coq Require Import ZArith List Uint63.
From Verif Require Import NT Prime63 PrimeCerts SIDH_Basis63.
Import ListNotations.
Open Scope Z_scope.
Definition xPA434 : G := (2634539327592482918121599540115765431217195093350648632832477775508933673747596362667240890051240463853167541162279343167040310088, 18590308952679468489364793668589003541299106140709579196186461020066893645141198854487503147226318730158493210982567772716162869840).
Definition yPA434 : G := (5939431588570449369158683956508528496223453666822913355462649580540912662646185179439579066285003135015364670770167824366051544351, 13455704735691655302298811388539123261893682801800581597574165560696355678020645361403425129051999404542345275957892384971808056016).
Definition xQA434 : G := (8633131302536015373065425580178973814526244742660764898957635611033517358603093513483897324469034427019598357249425684820405193836, 1640555213321637736080614728970921962714590288563692816952785470842808462670732196555713644986698688787353020078064569199240185333).
Definition yQA434 : G := (4162970909124556003706955607859322868250797816630835660512553175654915928672047062846911893014330914397962880488079687378531477530, 14394117136099871253105325964947616186856299274446824136456631692972014765735522929249115327770935064507795922916178933171663555625).
Definition xRA434 : G := (10548244869191429978994573331033429460802791853191679921432716242390096998215982561051229194803656270150791181542353263212179039510, 17623338845092751517427595119320347017334966146230013113905734683582704966390296970846105400364294574370981828797535336936167097772).
Definition xPB434 : G := (5822289030790821842647204127346110197186614331916510409554480418611145246532692679762948023941031185216358707524703325193156147113, 0).
Definition yPB434 : G := (4631002038627486062145710538859886699092897850004224163519174820337269208909673679867855016325656365561668068341925816094377133115, 0).
Definition xQB434 : G := (13106015910647201458426811493288965923311702902321179794984306791335898269651901670809619116119997952683697617529379507339288983622, 0).
Definition yQB434 : G := (0, 10209775938515962501771741506081580425243588708606392462054462399651871393790372518908435424495021346995173633235373991504988757970).
Definition xRB434 : G := (19978714732817982296321998790126652405475699311529669091328949981490769847281914491438519436155586335833863255694913096932863948652, 14167827257511306746606440016400170231086622175754382579855491498256779752299521404090563911050166061448571907478184141518856743652).
Lemma ctx434 : ctx_b p434_ctx = true. Proof. vm_cast_no_check (eq_refl true). Qed.
Lemma checkA434 : checkA p434_ctx xPA434 xQA434 215 = true. Proof. vm_cast_no_check (eq_refl true). Qed.
Lemma checkB434 : checkB p434_ctx (fst xPB434) (fst xQB434) 136 = true. Proof. vm_cast_no_check (eq_refl true). Qed.
Definition p503b_ctx : ctx := mkctx 13175843156907117380839252916199345042492186767578363998445663477035843932020761233518914911546024351608607150390087656982982306331019593961154237431807
  [1073741823; 1073741823; 1073741823; 1073741823; 1073741823; 1073741823; 1073741823; 1073741823; 664841215; 795379783; 452014213; 840884127; 270244854; 929685139; 637820011; 274745223; 4220661; 0]%uint63
  1%uint63
  [0; 0; 0; 0; 0; 0; 0; 0; 0; 0; 0; 0; 0; 0; 0; 0; 0; 0]%uint63
  [3221221376; 3221225469; 3221225469; 3221225469; 3221225469; 3221225469; 3221225469; 3221225469; 2327838717; 2290383334; 2466798552; 2918839994; 3116330117; 2649306116; 2244394456; 2222487935; 2255442966; 14]%uint63
  [430921505; 254; 0; 0; 0; 0; 0; 0; 903205888; 609964383; 180526384; 557250476; 411503387; 492679385; 748336956; 258561994; 2164066; 0]%uint63.
Definition xPA503 : G := (598731473478175178061187348602069297333549163428939979629523574390608068248963076780259720359959333459849068307643602107176506677543421128505637017208, 6320532212404399382016063711621672519097819289093008132287422899586558654154409534465288623620152707063792403841177958686744730460358867369790214313426).
Definition yPA503 : G := (7426962917961886750223017992649030370937754287299592176293296013750046278528127270441749990770397646543053639338703118870066071949533225567468389035535, 4933101381662632860793723128899783676713316867789870876301082420674288633349127213108982942657184880054878201780353332330135295382721630567005079288999).
Definition xQA503 : G := (10303639081125516279001395287746760176758405254609941364872116054854162905961918713361681608991552251201029580427357273234152024018341363107600917423201, 12782700525274606080563088995687953414271121242085716929817360778487970449266550563914806669696607531319998303840529920531168654117474642657984154795441).
Definition yQA503 : G := (11907913747401263372631993650383474010460887355731972007259579839843387604583306264088777388731137707596732200482457305106853755102838384483226607408980, 5292840094190856756897919330752760358645449293970119310207955661961420744230791925978770188802827628077305751047954330175704766117841777492781885522580).
Definition xRA503 : G := (12509218309718532854332942208346153574542996164252915421699889272598958199135267399861163567618642166784471853904581905190717363517810244763641679761055, 1335105158761904375086321733636949601061387148884944277886595669505349266124420727230365047604242373250586612001990261861820516208603215663680538711192).
Definition xPB503 : G := (10395771746384663457709878182675363876289472956896319955035800944963560043487131351381624225079611557910169511157250351409611867388651460757963950045919, 0).
Definition yPB503 : G := (9309552127100257329408002157658859489453309131568607095068230354479868403549207476529964476434226430001454218770443683472755151470484422193528293469683, 0).
Definition xQB503 : G := (11662485637823763116959534565001872592010882475641226843176985866588019368676991560369559249358763311711849556241666760730606211268182513109721338236243, 0).
Definition yQB503 : G := (0, 7634548483727126773543333352398604451954368718228168550650277018082903630942062065511172438901759852748000940036717851411221926820916595391278637026820).
Definition xRB503 : G := (154459043155387065396424009957419869712039499996384186684154952283149434421831909414629931121223671648463292265394714392291130151414443679316615935266, 8286885299052081621711535235896514343196092250707482373802887092860779668469128499005462149290615896285463027295046426298617122298134606667068233750360).
Lemma ctx503 : ctx_b p503b_ctx = true. Proof. vm_cast_no_check (eq_refl true). Qed.
Lemma checkA503 : checkA p503b_ctx xPA503 xQA503 249 = true. Proof. vm_cast_no_check (eq_refl true). Qed.
Lemma checkB503 : checkB p503b_ctx (fst xPB503) (fst xQB503) 158 = true. Proof. vm_cast_no_check (eq_refl true). Qed.
Definition xPA751 : G := (6392653750389499144594798145926583444354409039583606858359849849952175922439864668710005278778374444865434395866810086432449384862893379044515952989369610078853427396744868696171536543536691791447062025853410930611265727936250, 1993436594774325849134512059294984900092784525889309731865924302516333954639088053874784298502590615500299169775920492705338536494948131816798689951115100682529755597000522266521373993031102110056636212011317531431383151419457).
Definition yPA751 : G := (9247561791639700308919663107747389810162712094554375412255326325523073102380394676797573527834115015313117465754859533501369969873773397723456556675506747402160405921967469917480003880221889567490084040289902466364882051607127, 8410356927494312285187073482780420792515820835044177126889672090440017632758357493072853735551054168879467716099648873692928286881114924733792187243585672698913280382197829936159494515960785972718545366807421318769978028646529).
Definition xQA751 : G := (2141306817115640038993862181765492931500972641785085350947220052387904285572880641340973064166142567836013875254694387171253686309941716659316458912387577733949836538957913038827049600784199475852241950366745525218545897974030, 3462139332946457351613256472394206428708902796442953775366163334092154110965882738568198703970873585433373209361346635159539572450380354861849053160099274714477389537230240941950694098078938506114926490884815238642940114646471).
Definition yQA751 : G := (5383666533092486714847461593265900570819791506794988927186620828665840923123900217595990075043682305247165255510000605374687560428773530620189222584262511048630714680572078219525179617277933044284019771928602630801277160484523, 8954299928771936332062216555686428039790492316302219769147431701241971172458021787368901805188682166197589586832719387500582488288660450142597093487406646085156999051283144453448593208236383907820353677617513234450146921666526).
Definition xRA751 : G := (8920767099889265354270903767976190589347780532338110811601966065539889197224092469005030134458217535515117192741315988190233956060833229415177951494574325212388096836354324553840374916089004540013556866495215628182837045568955, 7485054888408186199988187951947272686736588976237807119427933559723580777349951819085282578750816796140208081851358534302244661919771165437390420226722284298495663460285754671947773474537816261384790115136982920513335294841189).
Definition xPB751 : G := (8917296521312037934018779383955573993264347381711746006893090701936594237023232166684104618705889709151882479004705477580016078091729035680421189641116128972780575456542140523559278016360828837041023736833315936592076152779518, 0).
Definition yPB751 : G := (2377565889714143383335748974228750316369281985064679658127207622879541362842475435772709313377958381629996664175469014842333337692849954715390040534493917153868793565112827867106608451513463331154966763771251612437312246249960, 0).
Definition xQB751 : G := (8511019311184218364369646557252415173765495706553816075924705665118452233626065646710473783622713033004291163624815196837285573011460225202480327659675906178097793861901498715713456623486950717478378070640744966049319812387057, 0).
Definition yQB751 : G := (0, 5605691888548155805588620430004646826322105701293681452143720262470942943608008792664234512354847485276767855611060858353893946678516523226918092803442191503844598649846129089082808194761547180843303509015807356423798641118652).
Definition xRB751 : G := (7948472920477987382026230091597296324770743133322382953559027144948810258767547973629670019619498810386907603969957459770220385943384654803338204542090155222002874700542244358439397441360179573140328384790672595434635205779427, 8399745264634857705578681279266694258039523836471824133317786739845301013095107323108209992417182837952421722872170331095872127782294209276940273704388772866734580589843768351599575913837321305038643830671122310284823719495713).
Lemma ctx751 : ctx_b p751_ctx = true. Proof. vm_cast_no_check (eq_refl true). Qed.
Lemma checkA751 : checkA p751_ctx xPA751 xQA751 371 = true. Proof. vm_cast_no_check (eq_refl true). Qed.
Lemma checkB751 : checkB p751_ctx (fst xPB751) (fst xQB751) 238 = true. Proof. vm_cast_no_check (eq_refl true). Qed.
